(** * From the caches back to the stored account and pool. *)
From Verif Require Import Base DFloat Lists Types Config Oracle Pool Account Fees Referral ExInternal Exchange System Sums Trace Frames Calls Shape Spec SpecOracle SpecTrading SpecMargin P_Ledger P_Accounts Frames2 Trading P_Positions P_Positions2.

(** What an account holds after its cache is written back. *)
Record realized (v : vacc) (acc' : account) : Prop := {
  rz_vb : ac_vb acc' = va_vb v; rz_coll : ac_coll acc' = ac_coll (va_comp v); rz_vaults : ac_vaults acc' = ac_vaults (va_comp v);
  rz_ref : ac_ref acc' = ac_ref (va_comp v); rz_l1 : ac_l1 acc' = ac_l1 (va_comp v); rz_l2 : ac_l2 acc' = ac_l2 (va_comp v); rz_l3 : ac_l3 acc' = ac_l3 (va_comp v);
  rz_amount : forall k, ap_amount (held acc' k) = ap_amount (pos_of v k); rz_cost : forall k, ap_cost (held acc' k) = ap_cost (pos_of v k);
  rz_pos : forall k, ap_amount (pos_of v k) <> 0 -> held acc' k = pos_of v k /\ ac_positions acc' !! k = Some (pos_of v k);
  rz_none : forall k, ap_amount (pos_of v k) = 0 -> ac_positions acc' !! k = None }.
Lemma realized_intro v acc' : acc_si v -> nonzero (va_comp v) -> acc_update (va_comp v) (va_updates v) = Ok acc' -> realized v acc'.
Proof.
  intros Hs Hn H. pose proof (realized_nonzero _ _ Hn H) as Hnz.
  pose proof (fun f k Hf => realized_field v f k acc' Hf Hs H) as Hf.
  assert (forall k, held acc' k = default apos_zero (ac_positions acc' !! k)) as Hh by (intros k; unfold held; destruct (ac_positions acc' !! k); reflexivity).
  assert (forall k, ap_amount (held acc' k) = ap_amount (pos_of v k)) as Ham.
  { intros k. rewrite Hh. pose proof (Hf F_long k (or_introl eq_refl)) as H1. pose proof (Hf F_short k (or_intror (or_introl eq_refl))) as H2. simpl in H1, H2. lia. }
  pose proof H as H'. unfold acc_update in H'. bd H' as (r1 & _ & H'). bd H' as (r2 & _ & H'). apply Ok_inj in H'.
  assert (forall k, ap_amount (pos_of v k) <> 0 -> ac_positions acc' !! k = Some (pos_of v k)) as Hpos.
  { intros k Hk. pose proof (merge_pos_lookup v k Hs) as Hm. destruct (Z.eqb_spec (ap_amount (pos_of v k)) 0) as [|_]; [contradiction|].
    rewrite <- H'. cbn [ac_positions va_updates au_positions]. change (ac_positions _) with (acc_merge_positions (filter (fun kv => fst kv ∈ va_pos_upd v) (va_positions v)) (ac_positions (va_comp v))).
    destruct (acc_merge_positions _ _ !! k) as [x|] eqn:Hx; simpl in Hm; [congruence|]. rewrite <- Hm in Hk. destruct Hk. reflexivity. }
  constructor; try (rewrite <- H'; reflexivity); auto.
  - intros k. rewrite Hh. exact (Hf F_cost k (or_intror (or_intror eq_refl))).
  - intros k Hk. pose proof (Hpos k Hk) as Hp. split; [|exact Hp]. rewrite Hh, Hp. reflexivity.
  - intros k Hk. destruct (ac_positions acc' !! k) as [x|] eqn:Hx; [|reflexivity]. exfalso. apply (Hnz k x Hx). rewrite <- Hk, <- Ham, Hh, Hx. reflexivity.
Qed.
Lemma vp_realize_pool p : po_vb (vp_realize p) = vp_vb p /\ po_upf (vp_realize p) = vp_upf p /\ po_skew (vp_realize p) = vp_skew p /\ po_pnl (vp_realize p) = vp_pnl p /\ po_base (vp_realize p) = po_base (vp_comp p).
Proof. unfold vp_realize, pool_update. cbn. auto. Qed.
Lemma pool_pair_cached w p k pp : cached_ok (w_now w) p -> w_pool w = vp_realize p -> vp_positions p !! k = Some pp -> pool_pair w k = pp.
Proof.
  intros Hc Hw Hk. unfold pool_pair. rewrite Hw. change (po_positions (vp_realize p)) with (real p). destruct (Hc _ _ Hk) as [Hr|[Hr ->]].
  - match goal with |- match ?t with _ => _ end = _ => assert (t = Some pp) as -> by exact Hr end. reflexivity.
  - match goal with |- match ?t with _ => _ end = _ => assert (t = None) as -> by exact Hr end. reflexivity.
Qed.
Lemma get_pool_cached w ids k : k ∈ ids -> vp_positions (get_pool w ids) !! k = Some (pool_pair w k).
Proof.
  intros Hk. unfold get_pool, vp_new. simpl. unfold pool_get_positions.
  match goal with |- ?t = _ => assert (t = Some (pool_get_position (w_now w) (w_pool w) k)) as -> end.
  { apply lookup_set_to_map; [intros; simpl in *; congruence|]. exists k. split; [exact Hk|reflexivity]. }
  unfold pool_get_position, pool_pair. destruct (po_positions (w_pool w) !! k); reflexivity.
Qed.
Lemma get_acc_held w a v acc k : get_acc w a = Ok v -> w_accounts w !! a = Some acc -> pos_of v k = held acc k.
Proof. intros Hv Ha. apply get_acc_inv in Hv as (acc' & Ha' & _ & _ & Hp & _). rewrite Ha in Ha'. injection Ha' as <-. unfold pos_of, held. rewrite Hp. destruct (ac_positions acc !! k); reflexivity. Qed.
(** Collateral in the cache and in the component move together. *)
Definition coll_sync (v : vacc) : Prop := va_coll v = ac_coll (va_comp v).
Lemma sstep_sync E now c o s x s' : sstep E now c o s x s' -> coll_sync (s_acc s) -> coll_sync (s_acc s').
Proof.
  intros H Hc. pose proof (sstep_frames _ _ _ _ _ _ _ H) as (_ & _ & Hf & _). destruct (touches_coll x) eqn:Ht.
  - destruct x; try discriminate Ht; inversion H; subst; cbn [s_acc] in *; clear Hf.
    + match goal with H : va_deposit _ _ = Ok _ |- _ => rename H into Hd end. unfold va_deposit, acc_deposit in Hd. bd Hd as (c1 & H1 & Hd). bd Hd as (a1 & H2 & Hd). bd H2 as (c2 & H2a & H2). bd H2 as (v2 & H2b & H2).
      apply Ok_inj in Hd, H2. subst. unfold coll_sync in *. simpl. rewrite Hc in H1. congruence.
    + match goal with H : va_withdraw _ _ _ _ = Ok _ |- _ => rename H into Hd end. unfold va_withdraw, acc_withdraw in Hd. bd Hd as ([a1 b1] & H2 & Hd). bd Hd as (c1 & H1 & Hd). bd H2 as ([v2 b2] & H2a & H2). bd H2 as (c2 & H2b & H2).
      apply Ok_inj in Hd, H2. injection Hd as <- <-. injection H2 as <- <-. unfold coll_sync in *. simpl. rewrite Hc in H1. congruence.
  - specialize (Hf eq_refl). unfold g_coll in Hf. unfold coll_sync in *. injection Hf as E1 E2. congruence.
Qed.
Lemma ssteps_sync E now c o s l s' : ssteps E now c o s l s' -> coll_sync (s_acc s) -> coll_sync (s_acc s').
Proof. revert s l s'. apply (ssteps_inv E now c o (fun s => coll_sync (s_acc s))). apply sstep_sync. Qed.
Lemma get_acc_sync w a v : get_acc w a = Ok v -> coll_sync v.
Proof. unfold get_acc, va_new, coll_sync. intros H. bd H as (acc & _ & H). bd H as (rd & _ & H). apply Ok_inj in H. subst v. reflexivity. Qed.
(** Writing back one account. *)
Lemma realize_acc_final w v w' : realize_acc w v = Ok w' -> acc_si v -> nonzero (va_comp v) ->
  exists acc', w_accounts w' !! va_addr v = Some acc' /\ realized v acc' /\ (forall b, b <> va_addr v -> w_accounts w' !! b = w_accounts w !! b) /\
    w_pool w' = w_pool w /\ w_now w' = w_now w /\ w_config w' = w_config w /\ w_oracle w' = w_oracle w /\ w_fd w' = w_fd w /\ w_lp w' = w_lp w /\ w_gen w' = w_gen w /\ w_perms w' = w_perms w /\ w_dl w' = w_dl w.
Proof.
  intros H Hs Hn. apply realize_acc_inv in H as (acc & refs & Hz & ->). exists acc. simpl. split; [apply lookup_insert|]. split; [apply realized_intro; [exact Hs|exact Hn|]; exact (proj1 (va_realize_inv _ _ _ _ Hz))|].
  split; [intros b Hb; apply lookup_insert_ne; congruence|]. repeat split.
Qed.

(** The referral's balance after the write back is the one in the cache. *)
Definition ref_bal_of (refs : gmap N referral) (id : option N) : Z :=
  match id with Some i => match refs !! i with Some d => rf_balance d | None => 0 end | None => 0 end.
Lemma refs_final v0 v refs acc' refs' id : va_realize v refs = Ok (acc', refs') -> ref_rel v0 v -> va_ref_id v0 = id -> va_ref v0 = match id with Some i => refs !! i | None => None end ->
  ref_bal_of refs' id = ref_bal v.
Proof.
  intros Hz (A & B & C & D & F) Hi Hr. apply va_realize_inv in Hz as [_ [[Hw ->]|(i & d & d0 & Hw & Hid & Hd & Hd0 & ->)]].
  - unfold ref_bal. rewrite (D Hw), Hr. unfold ref_bal_of. destruct id as [i|]; reflexivity.
  - assert (id = Some i) as -> by congruence. unfold ref_bal_of, ref_bal. rewrite lookup_insert, Hd. reflexivity.
Qed.
