(** * The events of every call, and what they say about the caches the call wrote back. *)
From Verif Require Import Base DFloat Lists Types Config Oracle Pool Account Fees Referral ExInternal Exchange System Sums Trace Frames Calls Shape Spec SpecRequests SpecMargin SpecEvents
  Frames2 P_Ledger P_Accounts P_Requests P_Requests2 P_Oracle P_Keeper.

(** ** Reading a list of events *)
Lemma replay_app v l k : replay_all v (l ++ k) = replay_all (replay_all v l) k.
Proof. apply fold_left_app. Qed.
Lemma replay_size l : forall v a k, v_size (replay_all v l) a k = v_size v a k + lsum (fun e => size_change e a k) l.
Proof. induction l as [|e l IH]; intros v a k; [cbn; lia|]. cbn [replay_all fold_left]. rewrite lsum_cons. fold (replay_all (replay v e) l). rewrite IH. cbn. lia. Qed.
Lemma replay_coll l : forall v a r, v_coll (replay_all v l) a r = v_coll v a r + lsum (fun e => coll_change e a r) l.
Proof. induction l as [|e l IH]; intros v a k; [cbn; lia|]. cbn [replay_all fold_left]. rewrite lsum_cons. fold (replay_all (replay v e) l). rewrite IH. cbn. lia. Qed.
Definition lp_change (e : event) : Z := match e with EvLiquidity _ lp _ _ _ _ => lp | _ => 0 end.
Lemma replay_lp l : forall v, v_lp (replay_all v l) = v_lp v + lsum lp_change l.
Proof. induction l as [|e l IH]; intros v; [cbn; lia|]. cbn [replay_all fold_left]. rewrite lsum_cons. fold (replay_all (replay v e) l). rewrite IH. cbn. destruct e; cbn; lia. Qed.
(** One event, the rest saying nothing on the subject. *)
Definition not_pairs (e : event) : bool := match e with EvPairUpdates _ => false | _ => true end.
Definition not_requests (e : event) : bool := match e with EvRequests _ _ => false | _ => true end.
Definition not_valid (e : event) : bool := match e with EvValidStart _ _ => false | _ => true end.
Definition not_created (e : event) : bool := match e with EvAccountCreation _ _ => false | _ => true end.
Lemma replay_pairs0 l : forall v k, forallb not_pairs l = true -> v_pair (replay_all v l) k = v_pair v k.
Proof. induction l as [|e l IH]; intros v k H; [reflexivity|]. cbn [replay_all fold_left]. fold (replay_all (replay v e) l). cbn in H. apply andb_true_iff in H as [H1 H2]. rewrite IH by exact H2. destruct e; try discriminate H1; reflexivity. Qed.
Lemma replay_requests0 l : forall v a i, forallb not_requests l = true -> v_request (replay_all v l) a i = v_request v a i.
Proof. induction l as [|e l IH]; intros v a i H; [reflexivity|]. cbn [replay_all fold_left]. fold (replay_all (replay v e) l). cbn in H. apply andb_true_iff in H as [H1 H2]. rewrite IH by exact H2. destruct e; try discriminate H1; reflexivity. Qed.
Lemma replay_valid0 l : forall v a, forallb not_valid l = true -> v_valid (replay_all v l) a = v_valid v a.
Proof. induction l as [|e l IH]; intros v a H; [reflexivity|]. cbn [replay_all fold_left]. fold (replay_all (replay v e) l). cbn in H. apply andb_true_iff in H as [H1 H2]. rewrite IH by exact H2. destruct e; try discriminate H1; reflexivity. Qed.
Lemma replay_created0 l : forall v a, forallb not_created l = true -> v_account (replay_all v l) a = v_account v a.
Proof. induction l as [|e l IH]; intros v a H; [reflexivity|]. cbn [replay_all fold_left]. fold (replay_all (replay v e) l). cbn in H. apply andb_true_iff in H as [H1 H2]. rewrite IH by exact H2. destruct e; try discriminate H1; reflexivity. Qed.

(** ** The events of the caches *)
Lemma last_for_none {T} k (l : list (N * T)) : k ∉ map fst l -> last_for k l = None.
Proof.
  induction l as [|[j x] l IH]; intros H; [reflexivity|]. cbn in *. rewrite IH by (intros Hc; apply H; right; exact Hc). destruct (N.eqb_spec j k) as [->|]; [|reflexivity]. exfalso. apply H. left.
Qed.
Lemma last_for_in {T} k x (l : list (N * T)) : NoDup (map fst l) -> (k, x) ∈ l -> last_for k l = Some x.
Proof.
  induction l as [|[j y] l IH]; intros Hnd H; [inversion H|]. cbn in *. apply NoDup_cons in Hnd as [Hn Hnd]. apply elem_of_cons in H as [H|H].
  - injection H as -> ->. rewrite last_for_none by exact Hn. rewrite N.eqb_refl. reflexivity.
  - rewrite (IH Hnd H). reflexivity.
Qed.
Lemma last_for_map {T} k (m : gmap N T) : last_for k (map_to_list m) = m !! k.
Proof.
  destruct (m !! k) as [x|] eqn:Hk.
  - apply last_for_in; [apply NoDup_fst_map_to_list|]. apply elem_of_map_to_list. exact Hk.
  - apply last_for_none. intros Hi. apply elem_of_list_fmap in Hi as ([j x] & -> & Hi). apply elem_of_map_to_list in Hi. cbn in Hk. congruence.
Qed.
Lemma last_for_app {T} k (l1 l2 : list (N * T)) : last_for k (l1 ++ l2) = match last_for k l2 with Some x => Some x | None => last_for k l1 end.
Proof. induction l1 as [|[j x] l1 IH]; cbn; [destruct (last_for k l2); reflexivity|]. rewrite IH. destruct (last_for k l2); [reflexivity|reflexivity]. Qed.
Lemma last_for_imap {T} (xs : list T) : forall n k, last_for k (imap (fun i r => ((N.of_nat i + n)%N, r)) xs) = if (k <? n)%N then None else xs !! N.to_nat (k - n).
Proof.
  induction xs as [|x xs IH]; intros n k; [cbn; destruct (k <? n)%N; reflexivity|].
  cbn [imap]. cbn [last_for]. assert (imap ((fun i (r : T) => ((N.of_nat i + n)%N, r)) ∘ S) xs = imap (fun i r => ((N.of_nat i + (n + 1))%N, r)) xs) as ->.
  { apply imap_ext. intros i y _. cbn. f_equal. lia. }
  rewrite IH. destruct (N.ltb_spec k (n + 1)) as [H1|H1]; destruct (N.ltb_spec k n) as [H2|H2]; try lia.
  - destruct (N.eqb_spec (N.of_nat 0 + n) k); [lia|reflexivity].
  - assert (k = n) as -> by lia. destruct (N.eqb_spec (N.of_nat 0 + n) n); [|lia]. rewrite N.sub_diag. reflexivity.
  - replace (N.to_nat (k - n)) with (S (N.to_nat (k - (n + 1)))) by lia. cbn [lookup list_lookup]. destruct (xs !! _) as [y|]; [reflexivity|]. destruct (N.eqb_spec (N.of_nat 0 + n) k); [lia|reflexivity].
Qed.
Lemma pool_events_pair p v k : v_pair (replay_all v (pool_events p)) k = overwrite (v_pair v) (map_to_list (filter (fun kv => fst kv ∈ vp_updates p) (vp_positions p))) k.
Proof. unfold pool_events. cbv zeta. destruct (map_to_list _) as [|x l]; reflexivity. Qed.
Lemma realize_positions p k : po_positions (vp_realize p) !! k = overwrite (fun k => po_positions (vp_comp p) !! k) (map_to_list (filter (fun kv => fst kv ∈ vp_updates p) (vp_positions p))) k.
Proof. unfold overwrite. rewrite last_for_map. unfold vp_realize, pool_update. cbn [po_positions]. rewrite lookup_union. destruct (filter _ _ !! k); destruct (po_positions (vp_comp p) !! k); reflexivity. Qed.
Lemma acc_events_request v vw a i : v_request (replay_all vw (acc_events v)) a i = if (va_addr v =? a)%N then overwrite (v_request vw a) (va_event_requests v) i else v_request vw a i.
Proof. unfold acc_events. destruct (va_event_requests v) as [|x l]; cbn; [|reflexivity]. destruct (va_addr v =? a)%N; reflexivity. Qed.
Lemma acc_update_requests v acc' : kl_wf (ac_requests (va_comp v)) -> va_rlen v = kl_len (ac_requests (va_comp v)) -> acc_update (va_comp v) (va_updates v) = Ok acc' ->
  forall i, kl_get (ac_requests acc') i = overwrite (kl_get (ac_requests (va_comp v))) (va_event_requests v) i.
Proof.
  intros Hw Hl H i. unfold acc_update in H. bd H as (l1 & H1 & H). bd H as (l2 & H2 & H). apply Ok_inj in H. subst acc'. simpl in *.
  apply kl_push_all in H1 as (C1 & C2 & C3); [|exact Hw].
  apply kl_update_all in H2 as (D1 & D2 & D3 & D4); [|apply NoDup_fst_map_to_list|exact C1].
  unfold overwrite, va_event_requests. rewrite last_for_app, last_for_map, last_for_imap. destruct (va_req_upd v !! i) as [r|] eqn:Hu.
  - apply D3, elem_of_map_to_list. exact Hu.
  - rewrite D4. 2: { intros Hi. apply elem_of_list_fmap in Hi as ([k x] & -> & Hi). apply elem_of_map_to_list in Hi. simpl in Hu. congruence. }
    rewrite C3, Hl. unfold kl_len. destruct (N.ltb_spec i (kl_ptr (ac_requests (va_comp v)))) as [Hi|Hi]; [reflexivity|].
    destruct (va_req_add v !! _); [reflexivity|]. unfold kl_get. destruct (kl_kvs _ !! i) eqn:Hk; [|reflexivity]. assert (i < kl_ptr (ac_requests (va_comp v)))%N by (apply Hw; eauto). lia.
Qed.
(** Events of the caches are of these two kinds. *)
Lemma pool_events_shape p : pool_events p = [] \/ exists l, pool_events p = [EvPairUpdates l].
Proof. unfold pool_events. cbv zeta. destruct (map_to_list _); eauto. Qed.
Lemma acc_events_shape v : acc_events v = [] \/ exists l, acc_events v = [EvRequests (va_addr v) l].
Proof. unfold acc_events. destruct (va_event_requests v); eauto. Qed.
Lemma pool_events_new w ids : pool_events (get_pool w ids) = [].
Proof.
  unfold pool_events, get_pool, vp_new. cbn [vp_updates vp_positions]. cbv zeta.
  match goal with |- context [@filter ?A ?B ?F ?P ?D ?m] => assert (@filter A B F P D m = ∅) as -> by (apply map_filter_empty_iff; intros k x _; simpl; set_solver) end.
  rewrite map_to_list_empty. reflexivity.
Qed.

(** ** Calls on an account *)
Inductive told (E : env) (w : world) (a : addr) (main1 main2 : list event) (out : outp) (w' : world) : Prop :=
| told_intro now c o v0 ids fd l s acc' x y :
    get_acc w a = Ok v0 -> ssteps E now c o (mkS (get_pool w ids) v0 fd) l s ->
    acc_update (va_comp (s_acc s)) (va_updates (s_acc s)) = Ok acc' ->
    w_accounts w' = <[a := acc']> (w_accounts w) ->
    po_positions (w_pool w') = po_positions (vp_realize (s_pool s)) ->
    o_events out = main1 ++ x ++ y ++ main2 ->
    (x = acc_events (s_acc s) /\ y = pool_events (s_pool s)) \/ (x = pool_events (s_pool s) /\ y = acc_events (s_acc s)) ->
    told E w a main1 main2 out w'.
Lemma told_realize E w a main1 main2 out w' now c o v0 ids fd l s w1 w2 x y :
  get_acc w a = Ok v0 -> ssteps E now c o (mkS (get_pool w ids) v0 fd) l s ->
  w_accounts w1 = w_accounts w -> realize_acc w1 (s_acc s) = Ok w2 -> w_accounts w' = w_accounts w2 ->
  po_positions (w_pool w') = po_positions (vp_realize (s_pool s)) ->
  o_events out = main1 ++ x ++ y ++ main2 ->
  (x = acc_events (s_acc s) /\ y = pool_events (s_pool s)) \/ (x = pool_events (s_pool s) /\ y = acc_events (s_acc s)) ->
  told E w a main1 main2 out w'.
Proof.
  intros Hv Hs Ha Hz Ha' Hp He Hxy. apply realize_acc_inv in Hz as (acc & refs & Hz & ->). apply va_realize_inv in Hz as [Hz _].
  econstructor; [exact Hv|exact Hs|exact Hz| |exact Hp|exact He|exact Hxy].
  rewrite Ha'. cbn. rewrite Ha. apply ssteps_addr in Hs. cbn [s_acc] in Hs. rewrite Hs, (get_acc_addr _ _ _ Hv). reflexivity.
Qed.

(** What follows for the observer. *)
Lemma told_view E w a main1 main2 out w' acc : told E w a main1 main2 out w' -> w_accounts w !! a = Some acc -> acc_ok acc ->
  (forallb not_pairs main1 = true -> forallb not_pairs main2 = true -> forall v, (forall k, v_pair v k = po_positions (w_pool w) !! k) -> forall k, v_pair (replay_all v (o_events out)) k = po_positions (w_pool w') !! k) /\
  (forallb not_requests main1 = true -> forallb not_requests main2 = true -> forall v, (forall b i, v_request v b i = request_at w b i) -> forall b i, v_request (replay_all v (o_events out)) b i = request_at w' b i) /\
  (forall v b, v_valid (replay_all v (o_events out)) b = v_valid (replay_all v (main1 ++ main2)) b) /\
  (forall v b, v_account (replay_all v (o_events out)) b = v_account (replay_all v (main1 ++ main2)) b) /\
  (forall b k, lsum (fun e => size_change e b k) (o_events out) = lsum (fun e => size_change e b k) (main1 ++ main2)) /\
  (forall b r, lsum (fun e => coll_change e b r) (o_events out) = lsum (fun e => coll_change e b r) (main1 ++ main2)) /\
  (forall b, lsum (fun e => balance_change e b) (o_events out) = lsum (fun e => balance_change e b) (main1 ++ main2)) /\
  lsum lp_change (o_events out) = lsum lp_change (main1 ++ main2).
Proof.
  intros [now c o v0 ids fd l s acc' x y Hv Hs Hz Ha Hp He Hxy] Hacc Hok.
  apply get_acc_inv in Hv as (acc0 & Hacc0 & Hcomp & Had & _ & _ & _ & _ & Hlen & _). rewrite Hacc in Hacc0. injection Hacc0 as <-.
  pose proof (ssteps_comp _ _ _ _ _ _ _ Hs) as (K1 & _ & K3 & _ & _ & _ & K7). pose proof (ssteps_addr _ _ _ _ _ _ _ Hs) as K8. cbn [s_acc s_pool] in *.
  change (vp_comp (get_pool w ids)) with (w_pool w) in K1.
  assert (va_addr (s_acc s) = a) as Hada by congruence. assert (ac_requests (va_comp (s_acc s)) = ac_requests acc) as Hrq by congruence.
  assert (forall f : event -> Z, (forall m, f (EvPairUpdates m) = 0) -> (forall b m, f (EvRequests b m) = 0) -> lsum f (o_events out) = lsum f (main1 ++ main2)) as Hsum.
  { intros f F1 F2. rewrite He, !lsum_app. assert (lsum f (pool_events (s_pool s)) = 0) as E1 by (destruct (pool_events_shape (s_pool s)) as [->|[m ->]]; [reflexivity|rewrite lsum_cons, F1; reflexivity]).
    assert (lsum f (acc_events (s_acc s)) = 0) as E2 by (destruct (acc_events_shape (s_acc s)) as [->|[m ->]]; [reflexivity|rewrite lsum_cons, F2; reflexivity]).
    destruct Hxy as [[-> ->]|[-> ->]]; rewrite E1, E2; lia. }
  assert (forall v b, v_valid (replay_all v (x ++ y)) b = v_valid v b /\ v_account (replay_all v (x ++ y)) b = v_account v b) as Hva.
  { intros v b. split; [apply replay_valid0|apply replay_created0]; destruct (pool_events_shape (s_pool s)) as [E1|[m E1]], (acc_events_shape (s_acc s)) as [E2|[m' E2]]; destruct Hxy as [[-> ->]|[-> ->]]; rewrite E1, E2; reflexivity. }
  assert (v_pair_ok : forall v k, v_pair (replay_all v (x ++ y)) k = v_pair (replay_all v (pool_events (s_pool s))) k).
  { intros v k. destruct Hxy as [[-> ->]|[-> ->]]; rewrite replay_app.
    - rewrite !pool_events_pair. unfold overwrite. destruct (last_for k _); [reflexivity|]. apply replay_pairs0. destruct (acc_events_shape (s_acc s)) as [->|[m ->]]; reflexivity.
    - rewrite replay_pairs0; [reflexivity|]. destruct (acc_events_shape (s_acc s)) as [->|[m ->]]; reflexivity. }
  assert (v_req_ok : forall v b i, v_request (replay_all v (x ++ y)) b i = v_request (replay_all v (acc_events (s_acc s))) b i).
  { intros v b i. destruct Hxy as [[-> ->]|[-> ->]]; rewrite replay_app.
    - rewrite replay_requests0; [reflexivity|]. destruct (pool_events_shape (s_pool s)) as [->|[m ->]]; reflexivity.
    - rewrite !acc_events_request. unfold overwrite. assert (forall i, v_request (replay_all v (pool_events (s_pool s))) b i = v_request v b i) as Hq by (intros; apply replay_requests0; destruct (pool_events_shape (s_pool s)) as [->|[m ->]]; reflexivity). rewrite Hq. reflexivity. }
  assert (forall v, replay_all v (o_events out) = replay_all (replay_all (replay_all v main1) (x ++ y)) main2) as Hev.
  { intros v. rewrite He, app_assoc, app_assoc, replay_app, <- app_assoc, replay_app. reflexivity. }
  split; [|split; [|split; [|split; [|split; [|split; [|split]]]]]].
  - intros N1 N2 v Hvv k. rewrite Hev, replay_pairs0 by exact N2. rewrite v_pair_ok, pool_events_pair, Hp, realize_positions. unfold overwrite. destruct (last_for k _); [reflexivity|]. rewrite replay_pairs0 by exact N1. rewrite Hvv, K1. reflexivity.
  - intros N1 N2 v Hvv b i. rewrite Hev, replay_requests0 by exact N2. rewrite v_req_ok, acc_events_request, Hada. unfold request_at. rewrite Ha. destruct (N.eqb_spec a b) as [<-|Hn].
    + rewrite lookup_insert. change (kl_kvs (ac_requests acc') !! i) with (kl_get (ac_requests acc') i). rewrite (acc_update_requests _ _ ltac:(rewrite Hrq; apply Hok) ltac:(rewrite Hrq; congruence) Hz), Hrq. unfold overwrite. destruct (last_for i _); [reflexivity|]. rewrite replay_requests0 by exact N1. rewrite Hvv. unfold request_at. rewrite Hacc. reflexivity.
    + rewrite lookup_insert_ne by exact Hn. rewrite replay_requests0 by exact N1. rewrite Hvv. reflexivity.
  - intros v b. rewrite Hev, (replay_app v main1 main2). assert (forall l u1 u2, v_valid u1 b = v_valid u2 b -> v_valid (replay_all u1 l) b = v_valid (replay_all u2 l) b) as Hc.
    { intros l0. induction l0 as [|e l0 IH]; intros u1 u2 Hu; [exact Hu|]. cbn [replay_all fold_left]. fold (replay_all (replay u1 e) l0) (replay_all (replay u2 e) l0). apply IH. cbn. destruct e; try exact Hu. destruct (_ =? _)%N; [reflexivity|exact Hu]. }
    apply Hc. apply (Hva _ b).
  - intros v b. rewrite Hev, (replay_app v main1 main2). assert (forall l u1 u2, v_account u1 b = v_account u2 b -> v_account (replay_all u1 l) b = v_account (replay_all u2 l) b) as Hc.
    { intros l0. induction l0 as [|e l0 IH]; intros u1 u2 Hu; [exact Hu|]. cbn [replay_all fold_left]. fold (replay_all (replay u1 e) l0) (replay_all (replay u2 e) l0). apply IH. cbn. destruct e; try exact Hu. destruct (_ =? _)%N; [reflexivity|exact Hu]. }
    apply Hc. apply (Hva _ b).
  - intros b k. apply Hsum; reflexivity.
  - intros b r. apply Hsum; intros; unfold coll_change; destruct (r =? BASE)%N; reflexivity.
  - intros b. apply Hsum; reflexivity.
  - apply Hsum; reflexivity.
Qed.
