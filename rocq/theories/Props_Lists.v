(** * Stored lists and paginated getters (C45). *)
From Verif Require Import Base DFloat Lists Types Config Oracle Pool Account Fees Referral ExInternal Exchange System Wrapper Scenario Sums Trace Frames Calls Shape Spec SpecLists SpecOracle SpecMargin P_Ledger P_Accounts Witness Frames2 Props_Config P_Fees P_Requests P_Requests2 P_Lists.

(** ** The lists themselves *)
(** After any sequence of pushes and updates the stored list stands for the ordinary list the same writes produce, and
    every update was in range. *)
Theorem C45_list_history {T} (ops : list (list_write T)) : forall l xs l', stands_for l xs -> rfold write_stored l ops = Ok l' -> stands_for l' (foldl write_plain xs ops).
Proof.
  induction ops as [|o ops IH]; intros l xs l' Hs H; cbn [rfold foldl] in *; [apply Ok_inj in H; subst; exact Hs|]. bd H as (l1 & H1 & H). apply (IH l1); [|exact H]. destruct o as [x|i x]; cbn [write_stored write_plain] in *; [exact (stands_push _ _ _ _ Hs H1)|exact (proj2 (stands_update _ _ _ _ _ Hs H1))].
Qed.
Theorem C45_new_list_history {T} (ops : list (list_write T)) l : rfold write_stored kl_new ops = Ok l -> stands_for l (foldl write_plain [] ops).
Proof. apply C45_list_history, stands_new. Qed.
(** Its length is the number of pushes. *)
Theorem C45_length_is_pushes {T} (ops : list (list_write T)) l : rfold write_stored kl_new ops = Ok l ->
  kl_len l = N.of_nat (length (List.filter (fun o => match o with LPush _ => true | _ => false end) ops)).
Proof.
  intros H. destruct (C45_new_list_history _ _ H) as [-> _]. f_equal. assert (forall xs : list T, length (foldl write_plain xs ops) = (length xs + length (List.filter (fun o => match o with LPush _ => true | _ => false end) ops))%nat) as Hl; [|rewrite Hl; reflexivity].
  clear H. induction ops as [|o ops IH]; intros xs; cbn [foldl List.filter length]; [lia|]. rewrite IH. destruct o as [x|i x]; cbn [write_plain length]; [rewrite app_length; cbn; lia|rewrite insert_length; lia].
Qed.
(** A push succeeds until the 64-bit counter is full; an update succeeds exactly for an index in range. *)
Theorem C45_writes_succeed {T} (l : klist T) xs : stands_for l xs ->
  (forall x, (N.of_nat (length xs) < 18446744073709551615)%N -> exists l', kl_push l x = Ok l') /\
  (forall i x, (exists l', kl_update l i x = Ok l') <-> (N.to_nat i < length xs)%nat).
Proof.
  intros Hs. split.
  - intros x Hl. unfold kl_push. destruct Hs as [Hs _]. unfold kl_len in Hs. assert (uadd (kl_ptr l) 1 = Ok (kl_ptr l + 1)%N) as ->. { apply uadd_Ok. split; [reflexivity|]. apply N.le_succ_l in Hl. rewrite <- N.add_1_r in Hl. rewrite Hs. exact Hl. } cbn [mbind res_bind]. eexists. reflexivity.
  - intros i x. split; [intros [l' H]; exact (proj1 (stands_update _ _ _ _ _ Hs H))|]. intros Hi. unfold kl_update. destruct Hs as [Hs _]. unfold kl_len in Hs. replace (i <? kl_ptr l)%N with true by (symmetry; apply N.ltb_lt; lia). cbn [guard_ mbind res_bind]. eexists. reflexivity.
Qed.
(** A range read returns exactly the page, whatever the bounds. *)
Theorem C45_range {T} (l : klist T) xs s e : stands_for l xs -> kl_range l s e = page xs s e.
Proof. apply range_page. Qed.
(** A hash list after any insertions: one entry per key, in order of first insertion, with the last value inserted. *)
Theorem C45_hash_list_history {V} (ops : list (N * V)) : forall h kvs h', hstands_for h kvs -> rfold (fun h x => hl_insert h (fst x) (snd x)) h ops = Ok h' -> hstands_for h' (foldl (fun m x => put m (fst x) (snd x)) kvs ops).
Proof.
  induction ops as [|[k v] ops IH]; intros h kvs h' Hs H; cbn [rfold foldl] in *; [apply Ok_inj in H; subst; exact Hs|]. bd H as (h1 & H1 & H). apply (IH h1); [|exact H]. exact (hstands_insert _ _ _ _ _ Hs H1).
Qed.
Theorem C45_new_hash_list_history {V} (ops : list (N * V)) h : rfold (fun h x => hl_insert h (fst x) (snd x)) hl_new ops = Ok h ->
  hstands_for h (foldl (fun m x => put m (fst x) (snd x)) [] ops) /\ forall s e, hl_range h s e = Ok (page (map snd (foldl (fun m x => put m (fst x) (snd x)) [] ops)) s e).
Proof. intros H. assert (hstands_for h (foldl (fun m x => put m (fst x) (snd x)) [] ops)) as Hs by (exact (C45_hash_list_history ops _ _ _ hstands_new H)). split; [exact Hs|]. intros s e. exact (hrange_page _ _ _ _ Hs). Qed.

(** ** The exchange's getters *)
(** Pages of an account's requests: forwards from a start index, and the tail newest first, each item with its index. *)
Theorem C45_request_pages E w a acc : reachable E w -> w_accounts w !! a = Some acc ->
  exists xs, stands_for (ac_requests acc) xs /\
    (forall n start, (default 0 start + n <= 18446744073709551615)%N ->
       acc_get_requests acc n start = Ok (page (numbered xs) (default 0%N start) (default 0%N start + n))) /\
    (forall n, acc_get_requests_tail acc n None = Ok (rev (page (numbered xs) (N.of_nat (length xs) - n) (N.of_nat (length xs))))) /\
    (forall n e, (e < 18446744073709551615)%N ->
       acc_get_requests_tail acc n (Some e) = Ok (rev (page (numbered xs) (N.min (e + 1) (N.of_nat (length xs)) - n) (N.min (e + 1) (N.of_nat (length xs)))))).
Proof.
  intros Hr Ha. destruct (stands_ex _ (ok_list _ (acc_ok_reachable _ _ Hr _ _ Ha))) as [xs Hx]. exists xs. split; [exact Hx|]. pose proof (proj1 Hx) as Hlen.
  assert (forall n e, (e <= N.of_nat (length xs))%N -> (s ← usub e (N.min n e); Ok (zip (rev (map (fun i => (s + N.of_nat i)%N) (seq 0 (N.to_nat (e - s))))) (rev (kl_range (ac_requests acc) s e)))) = Ok (rev (page (numbered xs) (e - n) e))) as Ht.
  { intros n e He. assert (usub e (N.min n e) = Ok (e - n)%N) as ->. { apply usub_Ok. split; lia. } cbn [mbind res_bind]. rewrite (range_page _ _ _ _ Hx). f_equal. rewrite zip_rev, zip_page; [reflexivity|]. rewrite map_length, seq_length. unfold page. rewrite take_length, drop_length. lia. }
  split; [|split].
  - intros n start Hb. unfold acc_get_requests. cbv zeta. assert (uadd (default 0%N start) n = Ok (default 0%N start + n)%N) as -> by (apply uadd_Ok; split; [reflexivity|exact Hb]). cbn [mbind res_bind]. rewrite Hlen, (range_page _ _ _ _ Hx), zip_page. f_equal.
    assert (length (numbered xs) = length xs) as Hn by (unfold numbered; apply imap_length). rewrite <- Hn. apply page_min.
  - intros n. unfold acc_get_requests_tail. cbv zeta. cbn [mbind res_bind]. rewrite Hlen. apply Ht. lia.
  - intros n e Hb. unfold acc_get_requests_tail. cbv zeta. assert (uadd e 1 = Ok (e + 1)%N) as ->. { apply uadd_Ok. split; [reflexivity|]. apply N.le_succ_l in Hb. rewrite <- N.add_1_r in Hb. exact Hb. } cbn [mbind res_bind]. rewrite Hlen. apply Ht. lia.
Qed.
(** The configured pairs. *)
Definition pairs_stand (c : config) (kvs : list (N * pair_config_c)) : Prop := hstands_for (cf_pairs c) kvs /\ Forall (fun x => Config.pc_pair_id (pc_decompress (snd x)) = fst x) kvs.
Lemma pc_compress_id p cp : pc_compress p = Ok cp -> pc_pair_id (pc_decompress cp) = pc_pair_id p.
Proof.
  unfold pc_compress. intros H. repeat match type of H with (_ ≫= _) = Ok _ => let x := fresh "f" in let Hf := fresh "Hf" in bd H as (x & Hf & H) end. apply Ok_inj in H. subst cp. reflexivity.
Qed.
Lemma put_forall {V} (P : N * V -> Prop) kvs k v : Forall P kvs -> P (k, v) -> Forall P (put kvs k v).
Proof. intros H Hp. induction H as [|x kvs H1 H2 IH]; cbn [put]; [repeat constructor; exact Hp|]. destruct (fst x =? k)%N; constructor; assumption. Qed.
Lemma update_pairs_stand cs : forall c c' kvs, config_update_pairs c cs = Ok c' -> pairs_stand c kvs -> exists kvs', pairs_stand c' kvs' /\ map fst kvs `prefix_of` map fst kvs'.
Proof.
  unfold config_update_pairs. induction cs as [|p cs IH]; intros c c' kvs H Hs; cbn [rfold] in H; [apply Ok_inj in H; subst; exists kvs; split; [exact Hs|reflexivity]|]. bd H as (c1 & H1 & H). unfold config_update_pair1 in H1. bd H1 as (u & _ & H1). bd H1 as (cp & Hcp & H1). bd H1 as (ps & Hps & H1). apply Ok_inj in H1. subst c1. destruct Hs as [S1 S2].
  destruct (IH (c <| cf_pairs := ps |>) c' (put kvs (pc_pair_id p) cp) H) as (kvs' & A & B); [split; [exact (hstands_insert _ _ _ _ _ S1 Hps)|apply put_forall; [exact S2|exact (pc_compress_id _ _ Hcp)]]|]. exists kvs'. split; [exact A|]. etrans; [|exact B]. rewrite put_keys. destruct (decide _); [reflexivity|]. apply prefix_app_r. reflexivity.
Qed.
Lemma pairs_stand_step E cx w o w' out kvs : step E cx w o = Ok (w', out) -> pairs_stand (w_config w) kvs -> exists kvs', pairs_stand (w_config w') kvs' /\ map fst kvs `prefix_of` map fst kvs'.
Proof.
  intros H Hs. apply step_gstep in H. assert (exists kvs', pairs_stand (w_config w) kvs' /\ map fst kvs `prefix_of` map fst kvs') as Hsame by (exists kvs; split; [exact Hs|reflexivity]). destruct H; try exact Hsame.
  - destruct H0 as (l & H0 & _). apply acct_call_config in H0 as (-> & _). exact Hsame.
  - apply acct_call_config in H1 as (-> & _). exact Hsame.
  - unfold config_update_exchange in H. bd H as (? & _ & H). bd H as (ce & _ & H). apply Ok_inj in H. subst cf. exact Hsame.
  - exact (update_pairs_stand _ _ _ _ H Hs).
  - change (w_config (w <| w_config := cf |>)) with cf. assert (cf_pairs cf = cf_pairs (w_config w)) as Hc; [|unfold pairs_stand in *; rewrite Hc; exact Hsame]. unfold config_update_collaterals in H. bd H as (u0 & _ & H). revert H. generalize (w_config w) as c0. clear. induction cs as [|x cs IH]; intros c0 H; cbn [rfold] in H; [apply Ok_inj in H; subst; reflexivity|]. bd H as (c1 & H1 & H). bd H1 as (ce & _ & H1). apply Ok_inj in H1. subst c1. exact (IH _ H).
Qed.
Lemma pairs_stand_reachable E w : reachable E w -> exists kvs, pairs_stand (w_config w) kvs.
Proof.
  induction 1 as [owner auth keys now w Ha Hn Hg|w cx o w' out Hr IH Hs].
  - apply genesis_inv in Hg as (c & Hc & ->). unfold config_new in Hc. bd Hc as (e & _ & Hc). apply Ok_inj in Hc. subst c. exists []. split; [exact hstands_new|constructor].
  - destruct IH as [kvs IH]. destruct (pairs_stand_step _ _ _ _ _ _ _ Hs IH) as (kvs' & A & _). eauto.
Qed.
(** The pair getters page through one list: every configured pair once, with the configuration stored for it. *)
Theorem C45_pair_pages E w : reachable E w ->
  exists kvs : list (N * pair_config), NoDup (map fst kvs) /\ (forall k c, pair_cfg w k = Some c <-> (k, c) ∈ kvs) /\
    g_pair_configs_len w = N.of_nat (length kvs) /\
    forall n start, (default 0 start + n <= 18446744073709551615)%N ->
      g_pair_configs w n start = Ok (page (map snd kvs) (default 0%N start) (default 0%N start + n)) /\
      g_pairs w n start = Ok (page (map fst kvs) (default 0%N start) (default 0%N start + n)).
Proof.
  intros Hr. destruct (pairs_stand_reachable _ _ Hr) as (kvs & Hs & Hid). exists (map (fun x => (fst x, pc_decompress (snd x))) kvs). pose proof Hs as (_ & Hnd & Hget).
  assert (map fst (map (fun x => (fst x, pc_decompress (snd x))) kvs) = map fst kvs) as Hf by (rewrite map_map; reflexivity).
  assert (map snd (map (fun x => (fst x, pc_decompress (snd x))) kvs) = map pc_decompress (map snd kvs)) as Hsn by (rewrite !map_map; reflexivity).
  split; [rewrite Hf; exact Hnd|]. split; [|split].
  - intros k c. unfold pair_cfg, config_get_pair. split.
    + intros H. apply fmap_Some in H as (cp & H & ->). apply Hget in H. apply elem_of_list_fmap. exists (k, cp). split; [reflexivity|exact H].
    + intros H. apply elem_of_list_fmap in H as ([k0 cp] & [=-> ->] & H). apply Hget in H. apply fmap_Some. exists cp. split; [exact H|reflexivity].
  - unfold g_pair_configs_len. rewrite (hlen _ _ Hs), map_length. reflexivity.
  - intros n start Hb. assert (config_get_pair_configs (w_config w) n start = Ok (page (map snd kvs) (default 0%N start) (default 0%N start + n))) as Hc.
    { unfold config_get_pair_configs. cbv zeta. assert (uadd (default 0%N start) n = Ok (default 0%N start + n)%N) as -> by (apply uadd_Ok; split; [reflexivity|exact Hb]). cbn [mbind res_bind]. rewrite (hrange_page _ _ _ _ Hs), (hlen _ _ Hs). f_equal. replace (length kvs) with (length (map snd kvs)) by apply map_length. apply page_min. }
    unfold g_pair_configs, g_pairs. rewrite Hc. cbn [mbind res_bind]. rewrite Hf, Hsn. unfold page. split; f_equal.
    + rewrite <- firstn_map, <- skipn_map. reflexivity.
    + change (map pc_pair_id) with (map pc_pair_id). rewrite <- firstn_map, <- skipn_map. f_equal. f_equal. clear - Hid. induction Hid as [|x kvs H1 H2 IH]; [reflexivity|]. cbn [map]. f_equal; [exact H1|exact IH].
Qed.
(** Pairs never move: the list of configured pairs only grows at its end. *)
Theorem C45_pair_order E w l w' : reachable E w -> steps E w l w' ->
  exists kvs kvs', pairs_stand (w_config w) kvs /\ pairs_stand (w_config w') kvs' /\ map fst kvs `prefix_of` map fst kvs'.
Proof.
  intros Hr Hs. destruct (pairs_stand_reachable _ _ Hr) as [kvs Hk]. exists kvs. revert kvs Hk. induction Hs as [w|w cx o out w1 l w2 H1 H2 IH]; intros kvs Hk.
  - exists kvs. split; [exact Hk|]. split; [exact Hk|reflexivity].
  - destruct (pairs_stand_step _ _ _ _ _ _ _ H1 Hk) as (k1 & A & B). destruct (IH (reach_step _ _ _ _ _ _ Hr H1) _ A) as (k2 & _ & C & D). exists k2. split; [exact Hk|]. split; [exact C|]. etrans; eassumption.
Qed.
(** The wrapper's inputs: every registered token once, with its flag and vault. *)
Definition inputs_stand (t : wrapper) (rs : list resource) : Prop := stands_for (tw_list t) rs /\ NoDup rs /\ forall r, r ∈ rs <-> is_Some (tw_inputs t !! r).
Lemma inputs_same t t' rs : tw_list t' = tw_list t -> (forall r, is_Some (tw_inputs t' !! r) <-> is_Some (tw_inputs t !! r)) -> inputs_stand t rs -> inputs_stand t' rs.
Proof. intros Hl Hi (A & B & C). split; [rewrite Hl; exact A|]. split; [exact B|]. intros r. rewrite C, Hi. reflexivity. Qed.
Lemma ins_some {V} (m : gmap resource V) k x y r : m !! k = Some x -> is_Some ((<[k := y]> m : gmap resource V) !! r) <-> is_Some (m !! r).
Proof. intros H. destruct (decide (r = k)) as [->|Hn]; [rewrite lookup_insert, H; split; eauto|rewrite lookup_insert_ne by congruence; reflexivity]. Qed.
Lemma burn_same bb u u' b : tw_burn bb u b = Ok u' -> tw_inputs u' = tw_inputs u /\ tw_list u' = tw_list u.
Proof. intros H. unfold tw_burn in H. destruct (b_res b =? BASE)%N; [|destruct (b_res b =? FLASH_OATH)%N]; bd H as (? & _ & H); apply Ok_inj in H; subst u'; split; reflexivity. Qed.
Theorem C45_wrapper_inputs E burnable auth l t : tw_steps E burnable (tw_new auth) l t ->
  exists rs, NoDup rs /\ (forall r, r ∈ rs <-> is_Some (tw_inputs t !! r)) /\
    forall n start, (default 0 start + n <= 18446744073709551615)%N ->
      exists out, tw_get_inputs t n start = Ok out /\ map (fun x => fst (fst x)) out = page rs (default 0%N start) (default 0%N start + n) /\
        Forall (fun x => tw_inputs t !! fst (fst x) = Some (mkTI (snd x) (snd (fst x)))) out.
Proof.
  intros H. assert (exists rs, inputs_stand t rs) as (rs & A & B & C).
  { assert (exists rs, inputs_stand (tw_new auth) rs) as H0. { exists []. split; [exact stands_new|]. split; [constructor|]. intros r. cbn. rewrite lookup_empty. split; [intros Hx; inversion Hx|intros [x Hx]; discriminate]. }
    revert H0. induction H as [t|t o out t1 l t2 H1 H2 IH]; intros H0; [exact H0|]. apply IH. clear IH H2. destruct H0 as [rs Hs]. destruct o; cbn [tw_step] in H1.
    - bd H1 as (? & _ & H1). bd H1 as (? & _ & H1). bd H1 as (z & _ & H1). apply Ok_inj in H1. injection H1 as <- <-. exists rs. exact Hs.
    - apply Ok_inj in H1. injection H1 as <- <-. exists rs. exact Hs.
    - bd H1 as (t3 & H3 & H1). apply Ok_inj in H1. injection H1 as <- <-. unfold tw_add_input in H3. destruct (tw_inputs t !! r) eqn:Er; [apply Ok_inj in H3; subst; exists rs; exact Hs|]. bd H3 as (l0 & Hl0 & H3). apply Ok_inj in H3. subst t3. exists (rs ++ [r]). destruct Hs as (A & B & C). assert (r ∉ rs) as Hni by (rewrite C, Er; intros [x Hx]; discriminate). split; [exact (stands_push _ _ _ _ A Hl0)|]. split.
      + apply NoDup_app. split; [exact B|]. split; [intros y Hy Hy2; apply elem_of_list_singleton in Hy2; subst; exact (Hni Hy)|apply NoDup_singleton].
      + intros y. cbn. rewrite elem_of_app, elem_of_list_singleton, C. destruct (decide (y = r)) as [->|Hne]; [rewrite lookup_insert; split; eauto|rewrite lookup_insert_ne by congruence]. split; [intros [Hx|Hx]; [exact Hx|congruence]|left; assumption].
    - bd H1 as (t3 & H3 & H1). apply Ok_inj in H1. injection H1 as <- <-. unfold tw_update_wrappable in H3. bd H3 as (i0 & H0 & H3). apply expect_Ok in H0. apply Ok_inj in H3. subst t3. exists rs. eapply inputs_same; [| |exact Hs]; [reflexivity|]. intros y. apply (ins_some _ _ _ _ _ H0).
    - bd H1 as (? & _ & H1). bd H1 as ([t3 xb] & H3 & H1). apply Ok_inj in H1. injection H1 as <- <-. unfold tw_wrap in H3. bd H3 as (i0 & H0 & H3). apply expect_Ok in H0. do 3 (bd H3 as (? & _ & H3)). bd H3 as (s & Hss & H3). bd H3 as (? & _ & H3). bd H3 as (v & Hv & H3). apply Ok_inj in H3. injection H3 as <- <-. exists rs. eapply inputs_same; [| |exact Hs]; [reflexivity|]. intros y. apply (ins_some _ _ _ _ _ H0).
    - bd H1 as (? & _ & H1). bd H1 as ([t3 xb] & H3 & H1). apply Ok_inj in H1. injection H1 as <- <-. unfold tw_unwrap in H3. bd H3 as (i0 & H0 & H3). apply expect_Ok in H0. bd H3 as (a & Ha & H3). bd H3 as (t4 & H4 & H3). apply Ok_inj in H3. injection H3 as <- <-. destruct (burn_same _ _ _ _ H4) as [E1 E2]. exists rs. apply (inputs_same t); [exact E2| |exact Hs]. intros y. rewrite E1. apply (ins_some _ _ _ _ _ H0).
    - unfold tw_flash_loan in H1. bd H1 as (? & _ & H1). bd H1 as (f & Hf & H1). bd H1 as (? & _ & H1). bd H1 as (? & _ & H1). bd H1 as (s & Hss & H1). apply Ok_inj in H1. injection H1 as <- <-. exists rs. exact Hs.
    - bd H1 as (? & _ & H1). bd H1 as ([t3 xb] & H3 & H1). apply Ok_inj in H1. injection H1 as <- <-. unfold tw_repay in H3. do 3 (bd H3 as (? & _ & H3)). bd H3 as (a & Ha & H3). bd H3 as (t4 & H4 & H3). bd H3 as (t5 & H5 & H3). apply Ok_inj in H3. injection H3 as <- <-. destruct (burn_same _ _ _ _ H4) as [E1 E2]. destruct (burn_same _ _ _ _ H5) as [E3 E4]. exists rs. apply (inputs_same t); [rewrite E4; exact E2| |exact Hs]. intros y. rewrite E3, E1. reflexivity.
    - bd H1 as (? & _ & H1). bd H1 as (t3 & H3 & H1). apply Ok_inj in H1. injection H1 as <- <-. destruct (burn_same _ _ _ _ H3) as [E1 E2]. exists rs. apply (inputs_same t); [exact E2| |exact Hs]. intros y. rewrite E1. reflexivity. }
  exists rs. split; [exact B|]. split; [exact C|]. intros n start Hb. unfold tw_get_inputs. cbv zeta. assert (uadd (default 0%N start) n = Ok (default 0%N start + n)%N) as -> by (apply uadd_Ok; split; [reflexivity|exact Hb]). cbn [mbind res_bind]. rewrite (range_page _ _ _ _ A), (proj1 A), page_min.
  assert (forall r, r ∈ page rs (default 0%N start) (default 0%N start + n) -> is_Some (tw_inputs t !! r)) as Hp. { intros r Hx. apply C. unfold page in Hx. apply elem_of_take in Hx as (i & Hi & _). rewrite lookup_drop in Hi. eapply elem_of_list_lookup_2. exact Hi. }
  revert Hp. generalize (page rs (default 0%N start) (default 0%N start + n)). clear. intros p Hp. induction p as [|r p IH]; [exists []; split; [reflexivity|]; split; [reflexivity|constructor]|]. destruct (Hp r ltac:(left)) as [i Hi]. destruct IH as (out & I1 & I2 & I3); [intros y Hy; apply Hp; right; exact Hy|]. exists ((r, ti_wrappable i, ti_vault i) :: out). cbn [rmap]. rewrite Hi. cbn [expect mbind res_bind]. cbn [expect mbind res_bind] in I1. rewrite I1. cbn [mbind res_bind]. split; [reflexivity|]. split; [cbn [map fst]; rewrite I2; reflexivity|]. constructor; [cbn [fst snd]; rewrite Hi; destruct i; reflexivity|exact I3].
Qed.

(** ** Concrete cases *)
Theorem C45_ex : (exists l, rfold write_stored kl_new [LPush 5%N; LPush 7%N; LUpdate 0%N 6%N; LPush 8%N] = Ok l /\ kl_range l 1%N 9%N = [7%N; 8%N] /\ kl_get l 0%N = Some 6%N) /\
  reachable sc_env W5 /\ g_pairs W5 1%N (Some 1%N) = Ok [2%N].
Proof. split; [eexists; split; [vm_compute; reflexivity|split; vm_compute; reflexivity]|]. split; [exact W5_reach|]. vm_compute. reflexivity. Qed.
