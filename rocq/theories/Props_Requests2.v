(** * Properties of keeper requests, continued: C07, C09, C10, C44, C54, C55 (requests). *)
From Verif Require Import Base DFloat Lists Types Config Oracle Pool Account Fees Referral ExInternal Exchange System Sums Trace Frames Calls Shape Spec P_Ledger P_Accounts Frames2 P_Fees P_Requests P_Requests2 P_Requests3 P_Requests4 P_Refs SpecRequests Props_Requests Scenario Witness.

(** ** Submissions, in terms of the account's list. *)
Lemma count_of_count w a : count_of w a = request_count w a.
Proof. reflexivity. Qed.
Lemma appended_at w a news w' : appended w a news w' ->
  request_count w' a = (request_count w a + N.of_nat (length news))%N /\
  (forall j, (j < request_count w a)%N -> request_at w' a j = request_at w a j) /\
  (forall k, request_at w' a (request_count w a + N.of_nat k)%N = news !! k) /\
  (N.of_nat (size (active_set w' a)) <= ec_active_requests_max (g_exchange_config w))%N.
Proof.
  intros (acc & acc' & Ha & Ha' & Hl & Hk & _ & Hlim). unfold request_count, request_at, active_set. rewrite Ha, Ha'. unfold kl_len, kl_get in *.
  split; [exact Hl|]. split; [|split; [|exact Hlim]].
  - intros j Hj. rewrite Hk. apply N.ltb_lt in Hj. rewrite Hj. reflexivity.
  - intros k. rewrite Hk. destruct (N.ltb_spec (kl_ptr (ac_requests acc) + N.of_nat k) (kl_ptr (ac_requests acc))); [lia|]. f_equal. lia.
Qed.
(** All submissions at once. *)
Lemma submit_any E cx w o w' out a d : reachable E w -> step E cx w o = Ok (w', out) -> submits o = Some (a, d) ->
  exists news, appended w a news w' /\ (forall r, r ∈ news -> kr_submission r = w_now w + u64_as_i64 d) /\
    (forall i, Some i ∈ o_indexes out -> exists k r, i = (request_count w a + N.of_nat k)%N /\ news !! k = Some r).
Proof.
  intros Hr Hs Ho. destruct o; try discriminate Ho; simpl in Ho; injection Ho as -> <-.
  - destruct (remove_submit _ _ _ _ _ _ _ _ _ _ Hr Hs) as (Ha & Hi & _). eexists. split; [exact Ha|]. split.
    + intros r Hr0. apply elem_of_list_singleton in Hr0. subst r. simpl. change (u64_as_i64 0) with 0. lia.
    + intros i H. rewrite Hi in H. apply elem_of_list_singleton in H. injection H as ->. exists 0%nat. eexists. split; [|reflexivity]. change (count_of w a) with (request_count w a). simpl. lia.
  - destruct (order_submit _ _ _ _ _ _ _ _ _ _ _ _ _ _ _ _ _ Hr Hs) as (act & can & Ha & _ & _ & Hi & _). eexists. split; [exact Ha|]. split.
    + intros r Hr0. apply elem_of_list_singleton in Hr0. subst r. reflexivity.
    + intros i H. rewrite Hi in H. apply elem_of_list_singleton in H. injection H as ->. exists 0%nat. eexists. split; [|reflexivity]. change (count_of w a) with (request_count w a). simpl. lia.
  - destruct (tpsl_submit _ _ _ _ _ _ _ _ _ _ _ _ _ _ _ _ Hr Hs) as (Ha & Hi). eexists. split; [exact Ha|]. split.
    + intros r Hr0. unfold tpsl_news in Hr0. destruct price_tp, price_sl; simpl in Hr0; repeat (apply elem_of_cons in Hr0 as [->|Hr0]; [reflexivity|]); inversion Hr0.
    + intros i H. rewrite Hi in H. change (count_of w a) with (request_count w a) in *. unfold tpsl_news, tp_index, sl_index in *.
      destruct price_tp, price_sl; simpl in H; repeat (apply elem_of_cons in H as [H|H]; [try discriminate H; injection H as ->|]); try (inversion H; fail);
        first [exists 0%nat; eexists; split; [simpl; lia|reflexivity]|exists 1%nat; eexists; split; [simpl; lia|reflexivity]|exists 2%nat; eexists; split; [simpl; lia|reflexivity]].
Qed.

(** ** C07 *)
Theorem C07_submissions_bounded E cx w o w' out a d :
  reachable E w -> step E cx w o = Ok (w', out) -> submits o = Some (a, d) ->
  (N.of_nat (size (active_set w' a)) <= ec_active_requests_max (g_exchange_config w))%N.
Proof. intros Hr Hs Ho. destruct (submit_any _ _ _ _ _ _ _ _ Hr Hs Ho) as (news & Ha & _). apply appended_at in Ha. apply Ha. Qed.
Example C07_ex : reachable sc_env W3 /\ exists w' out, step sc_env cx_u2 W3 (snd (order cx_u2 A2 1%N (dec 1) false)) = Ok (w', out) /\ size (active_set w' A2) = 1%nat.
Proof.
  split; [exact W3_reach|]. destruct (try_true W3 (order cx_u2 A2 1%N (dec 1) false) (fun w' _ => (size (active_set w' A2) =? 1)%nat)) as (w' & out & H & Hf); [vm_compute; reflexivity|].
  exists w', out. split; [exact H|]. apply Nat.eqb_eq. exact Hf.
Qed.

(** ** C09 *)
Theorem C09_processed_inside_window E cx w a i upd w' out : reachable E w -> step E cx w (OProcessRequest a i upd) = Ok (w', out) ->
  exists r r', request_at w a i = Some r /\ request_at w' a i = Some r' /\ pending (kr_status r) /\ kr_submission r < w_now w /\ (valid_start w a <= i)%N /\
    (w_now w < kr_expiry r -> kr_status r = STATUS_ACTIVE /\ kr_status r' = STATUS_EXECUTED) /\
    (kr_expiry r <= w_now w -> kr_status r' = STATUS_EXPIRED).
Proof.
  intros Hr Hs. destruct (process_step _ _ _ _ _ _ _ _ Hr Hs) as (acc & acc' & r & Ha & Ha' & Hi & Hvs & Hsub & _ & _ & Hc). exists r.
  unfold valid_start. rewrite (request_at_some _ _ _ _ Ha), (request_at_some _ _ _ _ Ha'), Ha. destruct Hc as [(He & Hp & Hv)|(He & Hst & Hv)].
  - exists (set_st r STATUS_EXPIRED). split; [exact Hi|]. split; [rewrite Hv; unfold mark; rewrite decide_True by reflexivity; rewrite Hi; reflexivity|].
    split; [apply pend_pending; exact Hp|]. split; [exact Hsub|]. split; [exact Hvs|]. split; [lia|]. reflexivity.
  - exists (set_st r STATUS_EXECUTED). split; [exact Hi|]. split.
    + unfold exec_view in Hv. destruct (kr_request r) as [rm|ro].
      * rewrite Hv. unfold mark. rewrite decide_True by reflexivity. rewrite Hi. reflexivity.
      * destruct Hv as [_ Hv]. rewrite Hv. unfold after_set, mark. rewrite decide_True by reflexivity. rewrite Hi. reflexivity.
    + split; [right; exact Hst|]. split; [exact Hsub|]. split; [exact Hvs|]. split; [split; [exact Hst|reflexivity]|lia].
Qed.
Lemma merge_none (m : gmap pair_id account_position) : acc_merge_positions ∅ m = m.
Proof. apply map_eq. intros k. unfold acc_merge_positions. rewrite lookup_merge, lookup_empty. unfold diag_None. destruct (m !! k); reflexivity. Qed.
Theorem C09_expired_changes_nothing_else E cx w a i upd w' out r : reachable E w -> request_at w a i = Some r -> kr_expiry r <= w_now w ->
  step E cx w (OProcessRequest a i upd) = Ok (w', out) ->
  exists acc requests, w_accounts w !! a = Some acc /\
    kl_ptr requests = kl_ptr (ac_requests acc) /\
    (forall j, kl_kvs requests !! j = if decide (j = i) then Some (r <| kr_status := STATUS_EXPIRED |>) else kl_kvs (ac_requests acc) !! j) /\
    w' = w <| w_accounts := <[a := acc <| ac_requests := requests |> <| ac_active := ac_active acc ∖ {[i]} |>]> (w_accounts w) |>
           <| w_rewards := w_rewards w + ec_reward_keeper (g_exchange_config w) |> /\
    o_tokens out = [(KEEPER_REWARD, ec_reward_keeper (g_exchange_config w))] /\ o_payouts out = [] /\ o_nfts out = [].
Proof.
  intros Hr Hq He Hs. destruct (process_step _ _ _ _ _ _ _ _ Hr Hs) as (acc & acc' & r0 & Ha & Ha' & Hi & _ & _ & Hlen & _ & Hc).
  rewrite (request_at_some _ _ _ _ Ha) in Hq. rewrite Hq in Hi. injection Hi as <-. destruct Hc as [(_ & _ & Hv)|(Hlt & _)]; [|lia].
  apply step_exec_inv in Hs as (_ & _ & _ & H). simpl in H. unfold m_process_request in H.
  bd H as (v & Hga & H). bd H as ([[v1 rq] ex] & Hpr & H). bd H as (c & Hcf & H). bd H as ([[[w1 v2] pay] evs] & Hx & H). bd H as (w2 & Hre & H). bd H as ([w3 rew] & Hm & H).
  apply Ok_inj in H. injection H as <- <-.
  pose proof (get_acc_inv _ _ _ Hga) as (acc0 & Ha0 & Hc0 & Had & Hps & Hco & Hvb & Hvst & Hrl & Hal & Hpu & Hra & Hru & Haa & Har & Hrid & Hrw & _).
  rewrite Ha in Ha0. injection Ha0 as <-.
  apply process_inv in Hpr as (r1 & st & Hkr & _ & _ & _ & _ & Hst & _ & Hex & Hset).
  unfold va_keeper_request in Hkr. rewrite Hru, lookup_empty, Hc0 in Hkr. apply expect_Ok in Hkr. rewrite Hq in Hkr. injection Hkr as <-.
  assert (ex = true) as -> by (rewrite Hex; apply Z.leb_le; exact He). simpl in Hx, Hst. subst st. apply Ok_inj in Hx. injection Hx as <- <- <- <-.
  unfold set_one in Hset. simpl in Hset. destruct Hset as (v3 & Hv3 & ->). apply va_remove_active_inv in Hv3 as (_ & ->).
  apply realize_acc_inv in Hre as (acc2 & refs & Hre & ->). unfold va_realize in Hre. simpl in Hre. rewrite Hrw in Hre.
  bd Hre as (refs1 & Hr1 & Hre). apply Ok_inj in Hr1. subst refs1. bd Hre as (acc3 & Hu & Hre). apply Ok_inj in Hre. injection Hre as <- <-.
  apply mint_reward_inv in Hm as (-> & -> & _). simpl in Ha'. rewrite Had, lookup_insert in Ha'. injection Ha' as ->.
  unfold acc_update in Hu. bd Hu as (l1 & Hl1 & Hu). bd Hu as (l2 & Hl2 & Hu). apply Ok_inj in Hu.
  exists acc, l2. simpl in Hl1, Hl2. subst acc'. simpl in Hv, Hlen. unfold kl_len, kl_get in Hv, Hlen. split; [exact Ha|]. split; [exact Hlen|].
  split. { intros j. rewrite Hv. unfold mark. unfold kl_get in Hq. case_decide; [subst j; rewrite Hq; reflexivity|reflexivity]. }
  assert (ec_reward_keeper (vc_exchange c) = ec_reward_keeper (g_exchange_config w)) as Hrk by (rewrite (get_config_exchange _ _ _ Hcf); reflexivity).
  rewrite Hrk. split; [|split; [reflexivity|split; reflexivity]]. simpl. rewrite Had, Hc0, Hpu, Hps, Hvb, Hvst, Haa, Har, N.ltb_irrefl. simpl.
  rewrite (union_empty_r_L {[i]}), (union_empty_r_L (ac_active acc)).
  match goal with |- context [@filter ?A ?B ?F ?P ?D ?m] => assert (@filter A B F P D m = ∅) as -> by (apply map_filter_empty_iff; intros k0 y0 _; simpl; set_solver) end.
  rewrite merge_none. destruct acc, w; reflexivity.
Qed.
Lemma after_as now s : after now s = now + u64_as_i64 s.
Proof.
  unfold after, u64_as_i64, I64MAX. destruct (N.ltb_spec s (2 ^ 63)) as [H|H]; destruct (Z.leb_spec (Z.of_N s) (2 ^ 63 - 1)) as [H1|H1]; try lia.
Qed.
Example C09_ex_expired : exists w' outs, steps sc_env W3 (hist [order cx_u2 A2 1%N (dec 1) false; (cx_any, OAdvance 90000); (cx_any, OProcessRequest A2 2%N None)] outs) w' /\
  (kr_status <$> request_at w' A2 2%N = Some STATUS_EXPIRED).
Proof.
  destruct (try_run_true W3 [order cx_u2 A2 1%N (dec 1) false; (cx_any, OAdvance 90000); (cx_any, OProcessRequest A2 2%N None)] (fun w' _ => bool_decide (kr_status <$> request_at w' A2 2%N = Some STATUS_EXPIRED))) as (w' & out & H & Hf); [vm_compute; reflexivity|].
  exists w', out. split; [exact H|]. apply bool_decide_eq_true in Hf. exact Hf.
Qed.

(** ** C10 *)
Lemma submitted_at E cx w o w' out a d i : reachable E w -> step E cx w o = Ok (w', out) -> submits o = Some (a, d) -> Some i ∈ o_indexes out ->
  exists r, request_at w' a i = Some r /\ kr_submission r = after (w_now w) d.
Proof.
  intros Hr Hs Ho Hi. destruct (submit_any _ _ _ _ _ _ _ _ Hr Hs Ho) as (news & Ha & Hn & Hx). destruct (Hx _ Hi) as (k & r & -> & Hk).
  apply appended_at in Ha as (_ & _ & Ha & _). exists r. split; [rewrite Ha; exact Hk|]. rewrite after_as. apply Hn. eapply elem_of_list_lookup_2. exact Hk.
Qed.
Lemma process_after E cx w a i upd w' out : reachable E w -> step E cx w (OProcessRequest a i upd) = Ok (w', out) ->
  exists r, request_at w a i = Some r /\ kr_submission r < w_now w.
Proof. intros Hr Hs. destruct (C09_processed_inside_window _ _ _ _ _ _ _ _ Hr Hs) as (r & _ & Hi & _ & _ & Hsub & _). eauto. Qed.
(** With a delay below 2^63 seconds, a request can be processed only at a time
    strictly after its submission plus the delay; in particular not in the same instant. *)
Theorem C10_two_step E cx w o w1 out a d i l w2 cx' upd res :
  reachable E w -> step E cx w o = Ok (w1, out) -> submits o = Some (a, d) -> Some i ∈ o_indexes out -> (d < 2 ^ 63)%N ->
  steps E w1 l w2 -> step E cx' w2 (OProcessRequest a i upd) = Ok res -> w_now w + Z.of_N d < w_now w2.
Proof.
  intros Hr Hs Ho Hi Hd Hl Hp. destruct res as [w3 out3]. destruct (submitted_at _ _ _ _ _ _ _ _ _ Hr Hs Ho Hi) as (r & Hri & Hsub).
  assert (reachable E w1) as Hr1 by (eapply reach_step; eauto). destruct (process_after _ _ _ _ _ _ _ _ (steps_reachable _ _ _ _ Hl Hr1) Hp) as (r2 & Hr2 & Hlt).
  apply request_at_inv in Hri as (acc & Ha & Hi1). destruct (steps_rq _ _ _ _ _ _ _ _ Hl Hr1 Ha Hi1) as (acc2 & s & Ha2 & Hi2).
  rewrite (request_at_some _ _ _ _ Ha2), Hi2 in Hr2. injection Hr2 as <-. simpl in Hlt. rewrite Hsub in Hlt. unfold after in Hlt.
  destruct (N.ltb_spec d (2 ^ 63)); lia.
Qed.
(** Without the bound the claim is false: a delay of 2^64 - 10 seconds lets the order
    execute in the very instant it was submitted. *)
Theorem C10_wraps : exists w1 w2 out res upd, step sc_env cx_u2 W1 (OMarginOrderRequest None 18446744073709551606%N 600%N A2 1%N (dec 2) false PLNone (SLPercent (dec 5)) [] [] STATUS_ACTIVE) = Ok (w1, out) /\
  Some 0%N ∈ o_indexes out /\ step sc_env cx_any w1 (OProcessRequest A2 0%N upd) = Ok (w2, res) /\ w_now w1 = w_now W1 /\
  (kr_status <$> request_at w2 A2 0%N = Some STATUS_EXECUTED).
Proof.
  pose (l := [(cx_u2, OMarginOrderRequest None 18446744073709551606%N 600%N A2 1%N (dec 2) false PLNone (SLPercent (dec 5)) [] [] STATUS_ACTIVE); (cx_any, OProcessRequest A2 0%N (msg 30000%N 2000%N 999%N))]).
  destruct (try_run_true W1 l (fun w' outs => bool_decide (w_now w' = w_now W1) && bool_decide (kr_status <$> request_at w' A2 0%N = Some STATUS_EXECUTED) && match outs with [o1; o2] => bool_decide (Some 0%N ∈ o_indexes o1) | _ => false end)) as (w' & outs & H & Hf); [vm_compute; reflexivity|].
  apply andb_true_iff in Hf as [Hf Ho]. apply andb_true_iff in Hf as [Hn Hf]. apply bool_decide_eq_true in Hn. apply bool_decide_eq_true in Hf. destruct outs as [|o1 [|o2 [|]]]; try (exfalso; exact (Bool.diff_false_true Ho)).
  apply bool_decide_eq_true in Ho. unfold l, hist in H. cbn [zip zip_with] in H. apply steps_cons_inv in H as (w1 & H1 & H2). pose proof H2 as H2'. apply steps_cons_inv in H2' as (w2 & H3 & H4). apply steps_nil_inv in H4. subst w'.
  pose proof (steps_now _ _ _ _ H2) as N1. pose proof (steps_now _ _ _ _ (steps_cons _ _ _ _ _ _ _ _ H1 (steps_nil _ _))) as N2.
  exists w1, w2, o1, o2. eexists. split; [exact H1|]. split; [exact Ho|]. split; [exact H3|]. split; [lia|exact Hf].
Qed.
Example C10_ex : exists w' outs, steps sc_env W1 (hist [order cx_u2 A2 1%N (dec 2) false; (cx_any, OAdvance 1010); (cx_any, OProcessRequest A2 0%N (msg 30000%N 2000%N 1009%N))] outs) w' /\
  (kr_status <$> request_at w' A2 0%N = Some STATUS_EXECUTED).
Proof.
  destruct (try_run_true W1 [order cx_u2 A2 1%N (dec 2) false; (cx_any, OAdvance 1010); (cx_any, OProcessRequest A2 0%N (msg 30000%N 2000%N 1009%N))] (fun w' _ => bool_decide (kr_status <$> request_at w' A2 0%N = Some STATUS_EXECUTED))) as (w' & out & H & Hf); [vm_compute; reflexivity|].
  exists w', out. split; [exact H|]. apply bool_decide_eq_true in Hf. exact Hf.
Qed.

(** ** C44 *)
Lemma both_Some {A B} (x : A) (y : B) : is_Some (Some x) <-> is_Some (Some y).
Proof. split; intros _; eexists; reflexivity. Qed.
Lemma both_None {A B} : is_Some (@None A) <-> is_Some (@None B).
Proof. split; intros [? H]; discriminate H. Qed.
Theorem C44_tp_sl_linked E cx w oath delay expiry a pair amount ro pl slip tp sl w' out : reachable E w ->
  step E cx w (OMarginOrderTpSlRequest oath delay expiry a pair amount ro pl slip tp sl) = Ok (w', out) ->
  let n := request_count w a in
  let submission := after (w_now w) delay in
  let order status o := Some (mkKReq (ROrder o) submission (after submission expiry) status []) in
  exists i_tp i_sl, o_indexes out = [Some n; i_tp; i_sl] /\
    (is_Some i_tp <-> is_Some tp) /\ (is_Some i_sl <-> is_Some sl) /\
    request_at w' a n = order STATUS_ACTIVE (mkReqOrder pair amount ro pl slip (option_list i_tp ++ option_list i_sl) []) /\
    (forall i price, i_tp = Some i -> tp = Some price ->
       request_at w' a i = order STATUS_DORMANT (mkReqOrder pair (- amount) true (if 0 <? amount then PLGte price else PLLte price) slip [] (option_list i_sl))) /\
    (forall i price, i_sl = Some i -> sl = Some price ->
       request_at w' a i = order STATUS_DORMANT (mkReqOrder pair (- amount) true (if 0 <? amount then PLLte price else PLGte price) slip [] (option_list i_tp))) /\
    NoDup (n :: option_list i_tp ++ option_list i_sl) /\
    request_count w' a = (n + 1 + N.of_nat (length (option_list i_tp ++ option_list i_sl)))%N /\
    (forall j, (j < n)%N -> request_at w' a j = request_at w a j).
Proof.
  intros Hr Hs n submission order0. destruct (tpsl_submit _ _ _ _ _ _ _ _ _ _ _ _ _ _ _ _ Hr Hs) as (Ha & Hi). change (count_of w a) with n in *.
  apply appended_at in Ha as (Hc & Hold & Hnew & _). fold n in Hc, Hold, Hnew. exists (tp_index n tp), (sl_index n tp sl). split; [exact Hi|].
  assert (forall s e, after s e = s + u64_as_i64 e) as Haf by apply after_as. unfold order0, submission. rewrite !Haf.
  unfold tpsl_news, tp_index, sl_index in *.
  assert (forall k j, j = (n + N.of_nat k)%N -> request_at w' a j = tpsl_news w n delay expiry pair amount ro pl slip tp sl !! k) as Hk by (intros k j ->; apply Hnew).
  unfold tpsl_news, tp_index, sl_index in Hk. clear Hnew Hi.
  destruct tp as [t|], sl as [s|]; simpl in *.
  - split; [apply both_Some|]. split; [apply both_Some|]. split; [rewrite (Hk 0%nat) by lia; reflexivity|].
    split; [intros i p [= <-] [= <-]; rewrite (Hk 1%nat) by lia; reflexivity|]. split; [intros i p [= <-] [= <-]; rewrite (Hk 2%nat) by lia; reflexivity|].
    split; [|split; [rewrite Hc; lia|exact Hold]]. repeat (constructor; [rewrite ?elem_of_cons, ?elem_of_nil; lia|]). constructor.
  - split; [apply both_Some|]. split; [apply both_None|]. split; [rewrite (Hk 0%nat) by lia; reflexivity|].
    split; [intros i p [= <-] [= <-]; rewrite (Hk 1%nat) by lia; reflexivity|]. split; [discriminate|].
    split; [|split; [rewrite Hc; lia|exact Hold]]. repeat (constructor; [rewrite ?elem_of_cons, ?elem_of_nil; lia|]). constructor.
  - split; [apply both_None|]. split; [apply both_Some|]. split; [rewrite (Hk 0%nat) by lia; reflexivity|].
    split; [discriminate|]. split; [intros i p [= <-] [= <-]; rewrite (Hk 1%nat) by lia; reflexivity|].
    split; [|split; [rewrite Hc; lia|exact Hold]]. repeat (constructor; [rewrite ?elem_of_cons, ?elem_of_nil; lia|]). constructor.
  - split; [apply both_None|]. split; [apply both_None|]. split; [rewrite (Hk 0%nat) by lia; reflexivity|].
    split; [discriminate|]. split; [discriminate|]. split; [|split; [rewrite Hc; lia|exact Hold]]. repeat (constructor; [rewrite ?elem_of_cons, ?elem_of_nil; lia|]). constructor.
Qed.
Definition tpsl_op : ctx * op := (cx_u2, OMarginOrderTpSlRequest None 0%N 6000%N A2 1%N (dec 1) false PLNone SLNone (Some (dec 40000)) (Some (dec 1000))).
Example C44_ex : reachable sc_env W3 /\ exists w' out, step sc_env cx_u2 W3 (snd tpsl_op) = Ok (w', out) /\ o_indexes out = [Some 2%N; Some 3%N; Some 4%N].
Proof.
  split; [exact W3_reach|]. destruct (try_true W3 tpsl_op (fun _ out => bool_decide (o_indexes out = [Some 2%N; Some 3%N; Some 4%N]))) as (w' & out & H & Hf); [vm_compute; reflexivity|].
  exists w', out. split; [exact H|]. apply bool_decide_eq_true in Hf. exact Hf.
Qed.

(** ** C54 *)
Lemma resolve_spec r n j : (n < 2 ^ 63)%N -> ir_resolve r n = Ok j ->
  match r with
  | IRIndex i => j = i
  | IRRelative off => (0 <= Z.of_N n + off -> Z.of_N j = Z.of_N n + off) /\ (Z.of_N n + off < 0 -> Z.of_N j = 2 ^ 64 + (Z.of_N n + off))
  end.
Proof.
  intros Hn H. destruct r as [i|off]; simpl in H; [apply Ok_inj in H; auto|]. bd H as (s & Hs & H). inv_step Hs. apply Ok_inj in H. subst j.
  assert (u64_as_i64 n = Z.of_N n) as E0. { unfold u64_as_i64, I64MAX. destruct (Z.leb_spec (Z.of_N n) (2 ^ 63 - 1)); lia. }
  rewrite E0 in *. subst s. unfold i64_as_u64, I64MIN, I64MAX in *. split; intros Hc.
  - rewrite Z.mod_small by lia. lia.
  - replace ((Z.of_N n + off) mod 2 ^ 64) with (2 ^ 64 + (Z.of_N n + off)); [lia|]. apply Z.mod_unique with (-1); lia.
Qed.
(** What each reference in a submitted order was resolved to. *)
Theorem C54_references_resolved E cx w oath delay expiry a pair amount ro pl slip act can status w' out : reachable E w ->
  step E cx w (OMarginOrderRequest oath delay expiry a pair amount ro pl slip act can status) = Ok (w', out) -> (request_count w a < 2 ^ 63)%N ->
  let n := request_count w a in
  let resolved r j := match r with
    | IRIndex i => j = i
    | IRRelative off => (0 <= Z.of_N n + off -> Z.of_N j = Z.of_N n + off) /\ (Z.of_N n + off < 0 -> Z.of_N j = 2 ^ 64 + (Z.of_N n + off))
    end in
  exists r o, request_at w' a n = Some r /\ kr_request r = ROrder o /\ o_indexes out = [Some n] /\ kr_status r = status /\ pending status /\
    ro_pair o = pair /\ ro_amount o = amount /\ ro_reduce_only o = ro /\ ro_price_limit o = pl /\ ro_slippage o = slip /\
    Forall2 resolved act (ro_activate o) /\ Forall2 resolved can (ro_cancel o) /\ (length act <= 2)%nat /\ (length can <= 2)%nat.
Proof.
  intros Hr Hs Hn n resolved. destruct (order_submit _ _ _ _ _ _ _ _ _ _ _ _ _ _ _ _ _ Hr Hs) as (act' & can' & Ha & H1 & H2 & Hi & L1 & L2 & Hp). change (count_of w a) with n in *.
  apply appended_at in Ha as (_ & _ & Ha & _). fold n in Ha. specialize (Ha 0%nat). rewrite N.add_0_r in Ha. eexists. eexists. split; [exact Ha|]. split; [reflexivity|].
  split; [exact Hi|]. split; [reflexivity|]. split; [apply is_pending_spec in Hp; exact Hp|]. simpl. do 5 (split; [reflexivity|]).
  assert (forall l l', rmap (fun r => ir_resolve r n) l = Ok l' -> Forall2 resolved l l') as Hf.
  { intros l l' Hl. apply rmap_Forall2 in Hl. eapply Forall2_impl; [exact Hl|]. intros r j Hj. simpl in Hj. apply (resolve_spec r n j Hn Hj). }
  split; [apply Hf; exact H1|]. split; [apply Hf; exact H2|]. split; assumption.
Qed.
(** An order with a target index that does not exist (such as one that wrapped below
    zero) cannot be executed while the index does not exist; it can only expire. *)
Theorem C54_dangling_never_executes E cx w a i upd w' out r o j : reachable E w -> request_at w a i = Some r -> kr_request r = ROrder o ->
  j ∈ ro_activate o ++ ro_cancel o -> (request_count w a <= j)%N -> step E cx w (OProcessRequest a i upd) = Ok (w', out) -> kr_expiry r <= w_now w.
Proof.
  intros Hr Hi Ho Hj Hn Hs. destruct (process_step _ _ _ _ _ _ _ _ Hr Hs) as (acc & acc' & r0 & Ha & Ha' & Hi0 & _ & _ & _ & _ & Hc).
  rewrite (request_at_some _ _ _ _ Ha), Hi0 in Hi. injection Hi as ->. destruct Hc as [(He & _)|(_ & _ & Hv)]; [exact He|]. exfalso.
  unfold exec_view in Hv. rewrite Ho in Hv. destruct Hv as [Hv _]. apply Hv in Hj. unfold request_count in Hn. rewrite Ha in Hn.
  apply (ok_list _ (acc_ok_reachable _ _ Hr _ _ Ha)) in Hj. lia.
Qed.
(** A relative reference below zero is accepted and stored as a huge index. *)
Theorem C54_wraps : exists w' out r o, step sc_env cx_u2 W1 (OMarginOrderRequest None 0%N 600%N A2 1%N (dec 2) false PLNone SLNone [] [IRRelative (-1)] STATUS_ACTIVE) = Ok (w', out) /\
  request_at w' A2 0%N = Some r /\ kr_request r = ROrder o /\ ro_cancel o = [18446744073709551615%N] /\ request_count w' A2 = 1%N.
Proof.
  destruct (try_true W1 (cx_u2, OMarginOrderRequest None 0%N 600%N A2 1%N (dec 2) false PLNone SLNone [] [IRRelative (-1)] STATUS_ACTIVE)
    (fun w' _ => (request_count w' A2 =? 1)%N && match request_at w' A2 0%N with Some r => match kr_request r with ROrder o => bool_decide (ro_cancel o = [18446744073709551615%N]) | _ => false end | None => false end)) as (w' & out & H & Hf); [vm_compute; reflexivity|].
  apply andb_true_iff in Hf as [Hc Hf]. apply N.eqb_eq in Hc. destruct (request_at w' A2 0%N) as [r|] eqn:Hr; [|exfalso; exact (Bool.diff_false_true Hf)]. destruct (kr_request r) as [?|o] eqn:Ho; [exfalso; exact (Bool.diff_false_true Hf)|].
  apply bool_decide_eq_true in Hf. exists w', out, r, o. split; [exact H|]. rewrite Hr. auto.
Qed.
Example C54_ex : exists w' out r o, step sc_env cx_u2 W3 (OMarginOrderRequest None 0%N 600%N A2 1%N (dec 2) false PLNone SLNone [IRIndex 1%N] [IRRelative (-2); IRRelative 1] STATUS_ACTIVE) = Ok (w', out) /\
  request_at w' A2 2%N = Some r /\ kr_request r = ROrder o /\ ro_cancel o = [0%N; 3%N] /\ ro_activate o = [1%N].
Proof.
  destruct (try_true W3 (cx_u2, OMarginOrderRequest None 0%N 600%N A2 1%N (dec 2) false PLNone SLNone [IRIndex 1%N] [IRRelative (-2); IRRelative 1] STATUS_ACTIVE)
    (fun w' _ => match request_at w' A2 2%N with Some r => match kr_request r with ROrder o => bool_decide (ro_cancel o = [0%N; 3%N]) && bool_decide (ro_activate o = [1%N]) | _ => false end | None => false end)) as (w' & out & H & Hf); [vm_compute; reflexivity|].
  destruct (request_at w' A2 2%N) as [r|] eqn:Hr; [|exfalso; exact (Bool.diff_false_true Hf)]. destruct (kr_request r) as [?|o] eqn:Ho; [exfalso; exact (Bool.diff_false_true Hf)|].
  apply andb_true_iff in Hf as [H1 H2]. apply bool_decide_eq_true in H1, H2. exists w', out, r, o. split; [exact H|]. rewrite Hr. auto.
Qed.

(** ** C55, requests *)
Theorem C55_requests_grow E w l w' a : reachable E w -> steps E w l w' ->
  (request_count w a <= request_count w' a)%N /\ (valid_start w a <= valid_start w' a)%N /\ (valid_start w' a <= request_count w' a)%N.
Proof.
  intros Hr Hs. unfold request_count, valid_start. destruct (w_accounts w !! a) as [acc|] eqn:Ha.
  - destruct (steps_vstart _ _ _ _ _ _ Hs Hr Ha) as (acc' & Ha' & V & L). rewrite Ha'. split; [exact L|]. split; [exact V|].
    exact (ok_start _ (acc_ok_reachable _ _ (steps_reachable _ _ _ _ Hs Hr) _ _ Ha')).
  - split; [lia|]. split; [lia|]. destruct (w_accounts w' !! a) as [acc'|] eqn:Ha'; [|lia]. exact (ok_start _ (acc_ok_reachable _ _ (steps_reachable _ _ _ _ Hs Hr) _ _ Ha')).
Qed.
Example C55_ex_requests : request_count W4 A2 = 5%N /\ valid_start W4 A2 = 5%N /\ valid_start W3 A2 = 0%N.
Proof. vm_compute. auto. Qed.
