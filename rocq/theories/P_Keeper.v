(** * What a successful keeper call computed: the caches it read, the prices, the result state. *)
From Verif Require Import Base DFloat Lists Types Config Oracle Pool Account Fees Referral ExInternal Exchange System Sums Trace Frames Calls Shape SpecOracle P_Ledger P_Accounts P_Oracle.

Lemma step_exec' E cx w o w' out : step E cx w o = Ok (w', out) -> exec E cx w o = Ok (w', out).
Proof. intros H. apply step_inv in H as (_ & _ & _ & H). exact H. Qed.
Lemma process_request_inv now v i v1 rq ex : va_process_request now v i = Ok (v1, rq, ex) ->
  exists r n, (va_vstart v <= i)%N /\ va_keeper_request v i = Ok r /\ rq = kr_request r /\ kr_submission r < now /\ va_alen v = (n + 1)%N /\
    v1 = v <| va_alen := n |> <| va_act_rem := va_act_rem v ++ [i] |> <| va_req_upd := <[i := r <| kr_status := if ex then STATUS_EXPIRED else STATUS_EXECUTED |>]> (va_req_upd v) |> /\
    (ex = true /\ kr_expiry r <= now \/ ex = false /\ now < kr_expiry r /\ kr_status r = STATUS_ACTIVE).
Proof.
  unfold va_process_request. intros H. bd H as (? & H1 & H). bd H as (r & H2 & H). cbv zeta in H. bd H as (st & H3 & H). bd H as (? & H4 & H). bd H as (v2 & H5 & H).
  apply Ok_inj in H. injection H as <- <- <-. apply guard_Ok in H1, H4. apply N.leb_le in H1. apply Z.ltb_lt in H4. unfold va_remove_active in H5. bd H5 as (n & Hn & H5). apply Ok_inj in H5. subst v2.
  apply usub_Ok in Hn as [-> Hn]. exists r, (va_alen v - 1)%N. split; [exact H1|]. split; [exact H2|]. split; [reflexivity|]. split; [exact H4|]. split; [lia|].
  destruct (Z.leb_spec (kr_expiry r) now); bd H3 as (? & Hg & H3); apply Ok_inj in H3; subst st; (split; [reflexivity|]).
  - left. auto.
  - right. apply guard_Ok in Hg. apply N.eqb_eq in Hg. auto.
Qed.
Lemma process_inv E cx w a i upd w' out : step E cx w (OProcessRequest a i upd) = Ok (w', out) ->
  exists v0 v1 rq ex ids c w1 v2 pay evs w2,
    get_acc w a = Ok v0 /\ va_process_request (w_now w) v0 i = Ok (v1, rq, ex) /\
    ids = dom (va_positions v1) ∪ (match rq with ROrder r => {[ro_pair r]} | RRemove _ => ∅ end) /\ get_config w ids = Ok c /\
    (if ex then w1 = w /\ v2 = v1 /\ pay = [] /\ evs = [] else
       exists orc o, prices_ok E w upd ids c orc o /\
       match rq with
       | RRemove r => exists p toks ev, x_remove_collateral E cx c (get_pool w ids) v1 o r = Ok (p, v2, toks, ev) /\
           w1 = realize_pool (w <| w_oracle := orc |>) p /\ pay = [(rr_target r, toks)] /\ evs = ev :: pool_events p
       | ROrder r => exists s ev, x_margin_order (w_now w) c o (mkS (get_pool w ids) v1 (w_fd w)) r = Ok (s, ev) /\
           w1 = realize_pool (w <| w_oracle := orc |>) (s_pool s) <| w_fd := s_fd s |> /\ v2 = s_acc s /\ pay = [] /\ evs = ev :: pool_events (s_pool s)
       end) /\
    realize_acc w1 v2 = Ok w2 /\ w' = w2 <| w_rewards := w_rewards w2 + keeper_reward w |> /\
    o_payouts out = pay /\ o_events out = evs ++ acc_events v2 /\ o_tokens out = [(KEEPER_REWARD, keeper_reward w)].
Proof.
  intros H. apply step_exec' in H. simpl in H. unfold m_process_request in H.
  bd H as (v0 & Hv & H). bd H as ([[v1 rq] ex] & Hp & H). cbv zeta in H. bd H as (c & Hc & H). bd H as ([[[w1 v2] pay] evs] & Hx & H). bd H as (w2 & Hz & H). bd H as ([w3 rew] & Hm & H).
  apply Ok_inj in H. injection H as <- <-. apply mint_reward_inv in Hm as (-> & -> & _).
  assert (ec_reward_keeper (vc_exchange c) = keeper_reward w) as Hk by (unfold keeper_reward; rewrite (get_config_exchange _ _ _ Hc); reflexivity). rewrite Hk.
  eexists v0, v1, rq, ex, _, c, w1, v2, pay, evs, w2. split; [exact Hv|]. split; [exact Hp|]. split; [reflexivity|]. split; [exact Hc|]. split; [|split; [exact Hz|split; [reflexivity|split; [reflexivity|split; reflexivity]]]].
  destruct ex; simpl in Hx.
  - apply Ok_inj in Hx. injection Hx as <- <- <- <-. auto.
  - bd Hx as (feeds & Hf & Hx). bd Hx as ([orc o] & Ho & Hx). exists orc, o. split; [exact (prices_ok_feeds _ _ _ _ _ _ _ _ Hc Hf Ho)|].
    destruct rq as [r|r].
    + bd Hx as ([[[p2 v3] toks] ev] & Hr & Hx). apply Ok_inj in Hx. injection Hx as <- <- <- <-. exists p2, toks, ev. split; [exact Hr|]. split; [reflexivity|split; reflexivity].
    + bd Hx as ([s ev] & Hr & Hx). apply Ok_inj in Hx. injection Hx as <- <- <- <-. exists s, ev. split; [exact Hr|]. split; [reflexivity|split; [reflexivity|split; reflexivity]].
Qed.
Lemma swap_inv E cx w a r b upd w' out : step E cx w (OSwapDebt a r b upd) = Ok (w', out) ->
  exists v0 c orc o p v token rest ev w1, get_acc w a = Ok v0 /\ get_config w ∅ = Ok c /\ prices_ok E w upd ∅ c orc o /\
    x_swap_debt E c o (get_pool w ∅) v0 r b = Ok (p, v, token, rest, ev) /\
    realize_acc (w <| w_oracle := orc |>) v = Ok w1 /\ w' = realize_pool w1 p /\ o_tokens out = [token; rest] /\
    o_events out = ev :: acc_events v ++ pool_events p.
Proof.
  intros H. apply step_exec' in H. simpl in H. unfold m_swap_debt in H. bd H as (v0 & Hv & H). bd H as (c & Hc & H). cbv zeta in H. bd H as ([orc o] & Ho & H).
  bd H as ([[[[p v] tk] rs] ev] & Hx & H). bd H as (w1 & Hz & H). apply Ok_inj in H. injection H as <- <-.
  exists v0, c, orc, o, p, v, tk, rs, ev, w1. split; [exact Hv|]. split; [exact Hc|]. split; [eapply prices_ok_intro; [exact Hc| |exact Ho]; intros k Hk; set_solver|].
  split; [exact Hx|]. split; [exact Hz|]. split; [reflexivity|split; reflexivity].
Qed.
Lemma liquidate_call_inv E cx w a b upd w' out : step E cx w (OLiquidate a b upd) = Ok (w', out) ->
  exists v0 c orc o s toks evs w1, get_acc w a = Ok v0 /\ get_config w (dom (va_positions v0)) = Ok c /\ prices_ok E w upd (dom (va_positions v0)) c orc o /\
    x_liquidate E (w_now w) c o (mkS (get_pool w (dom (va_positions v0))) v0 (w_fd w)) b = Ok (s, toks, evs) /\
    realize_acc (w <| w_oracle := orc |> <| w_fd := s_fd s |>) (s_acc s) = Ok w1 /\
    w' = realize_pool w1 (s_pool s) <| w_rewards := w_rewards w1 + keeper_reward w |> /\
    o_tokens out = toks ++ [(KEEPER_REWARD, keeper_reward w)] /\ o_events out = evs ++ acc_events (s_acc s) ++ pool_events (s_pool s).
Proof.
  intros H. apply step_exec' in H. simpl in H. unfold m_liquidate in H. bd H as (v0 & Hv & H). cbv zeta in H. bd H as (c & Hc & H). bd H as (feeds & Hf & H). bd H as ([orc o] & Ho & H).
  bd H as ([[s toks] evs] & Hx & H). bd H as (w1 & Hz & H). bd H as ([w2 rew] & Hm & H). apply Ok_inj in H. injection H as <- <-. apply mint_reward_inv in Hm as (-> & -> & _).
  assert (ec_reward_keeper (vc_exchange c) = keeper_reward w) as Hk by (unfold keeper_reward; rewrite (get_config_exchange _ _ _ Hc); reflexivity). rewrite Hk.
  exists v0, c, orc, o, s, toks, evs, w1. split; [exact Hv|]. split; [exact Hc|]. split; [exact (prices_ok_feeds _ _ _ _ _ _ _ _ Hc Hf Ho)|].
  split; [exact Hx|]. split; [exact Hz|]. split; [reflexivity|split; reflexivity].
Qed.
Lemma adl_call_inv E cx w a pid upd w' out : step E cx w (OAutoDeleverage a pid upd) = Ok (w', out) ->
  exists v0 ids c orc o s ev w1, get_acc w a = Ok v0 /\ ids = dom (va_positions v0) ∪ {[pid]} /\ get_config w ids = Ok c /\ prices_ok E w upd ids c orc o /\
    x_auto_deleverage (w_now w) c o (mkS (get_pool w ids) v0 (w_fd w)) pid = Ok (s, ev) /\
    realize_acc (w <| w_oracle := orc |> <| w_fd := s_fd s |>) (s_acc s) = Ok w1 /\
    w' = realize_pool w1 (s_pool s) <| w_rewards := w_rewards w1 + keeper_reward w |> /\
    o_tokens out = [(KEEPER_REWARD, keeper_reward w)] /\ o_events out = ev :: acc_events (s_acc s) ++ pool_events (s_pool s).
Proof.
  intros H. apply step_exec' in H. simpl in H. unfold m_auto_deleverage in H. bd H as (v0 & Hv & H). cbv zeta in H. bd H as (c & Hc & H). bd H as (feeds & Hf & H). bd H as ([orc o] & Ho & H).
  bd H as ([s ev] & Hx & H). bd H as (w1 & Hz & H). bd H as ([w2 rew] & Hm & H). apply Ok_inj in H. injection H as <- <-. apply mint_reward_inv in Hm as (-> & -> & _).
  assert (ec_reward_keeper (vc_exchange c) = keeper_reward w) as Hk by (unfold keeper_reward; rewrite (get_config_exchange _ _ _ Hc); reflexivity). rewrite Hk.
  eexists v0, _, c, orc, o, s, ev, w1. split; [exact Hv|]. split; [reflexivity|]. split; [exact Hc|]. split; [exact (prices_ok_feeds _ _ _ _ _ _ _ _ Hc Hf Ho)|].
  split; [exact Hx|]. split; [exact Hz|]. split; [reflexivity|split; reflexivity].
Qed.
Lemma update_pairs_inv E cx w ps upd w' out : step E cx w (OUpdatePairs ps upd) = Ok (w', out) ->
  exists c orc o p fl, get_config w (list_to_set ps) = Ok c /\ prices_ok E w upd (list_to_set ps) c orc o /\
    rfold (upd_pair1 (w_now w) c o) (get_pool w (list_to_set ps), []) (elements (list_to_set ps : gset pair_id)) = Ok (p, fl) /\
    w' = realize_pool (w <| w_oracle := orc |>) p <| w_rewards := w_rewards w + dec (Z.of_nat (length (List.filter (fun b => b) fl))) |> /\
    o_tokens out = [(KEEPER_REWARD, dec (Z.of_nat (length (List.filter (fun b => b) fl))))] /\ o_flags out = fl /\ o_events out = pool_events p.
Proof.
  intros H. apply step_exec' in H. simpl in H. unfold m_update_pairs in H. cbv zeta in H. bd H as (c & Hc & H). bd H as (feeds & Hf & H). bd H as ([orc o] & Ho & H).
  bd H as ([p fl] & Hx & H). bd H as (n & Hn & H). bd H as ([w2 rew] & Hm & H). apply Ok_inj in H. injection H as <- <-. apply mint_reward_inv in Hm as (-> & -> & _).
  apply dec_of_int_Ok in Hn as [-> _]. exists c, orc, o, p, fl. split; [exact Hc|]. split; [exact (prices_ok_feeds _ _ _ _ _ _ _ _ Hc Hf Ho)|].
  split; [exact Hx|]. split; [reflexivity|split; [reflexivity|split; reflexivity]].
Qed.
