(** * Why the referral generator refuses (for C65). *)
From Verif Require Import Base DFloat Lists Types Config Oracle Pool Account Fees Referral ExInternal Exchange System Getters Scenario Sums Trace Frames Calls Shape Spec SpecMargin SpecReferral SpecTrading SpecRefuse SpecRefuse3 P_Ledger P_Accounts Frames2 P_Fees P_Tokens P_Refs P_Oracle P_Whole P_Gen P_Gen2 Props_RefAdmin P_Refuse P_Refuse2 P_Refuse3 Props_Refuse Props_Refuse2 Props_Refuse3.

Definition nonneg_map (m : gmap resource Z) : Prop := forall r, 0 <= default 0 (m !! r).
Lemma asked_cons r c cs : asked r (c :: cs) = (if (fst c =? r)%N then Z.max 0 (snd c) else 0) + asked r cs.
Proof. unfold asked. apply lsum_cons. Qed.
Lemma asked_nonneg r cs : 0 <= asked r cs.
Proof. unfold asked. apply lsum_nonneg. intros c _. destruct (_ =? _)%N; lia. Qed.
Lemma asked_pos r cs : pos_claims cs -> asked r cs = amount_in r cs.
Proof.
  unfold pos_claims. induction cs as [|c cs IH]; intros H; [reflexivity|]. inversion H as [|? ? H1 H2]; subst. rewrite asked_cons, amount_cons, (IH H2). unfold b_res, b_amt. destruct (fst c =? r)%N; lia.
Qed.
Lemma over_max x y : 0 <= x -> 0 <= y -> overflows x y -> DMAX < x + y.
Proof. unfold overflows, DMIN, DMAX. lia. Qed.
Definition times (mult : option N) : Z := match mult with Some n => Z.of_N n | None => 1 end.
Lemma f_add_claims mult cs : times mult <= 2 ^ 64 - 1 -> forall m, nonneg_map m ->
  fails (fun e => e = EInvalidClaimAmount /\ (exists c, c ∈ cs /\ snd c <= 0) \/ e = EArithmetic /\ exists r, DMAX < default 0 (m !! r) + times mult * asked r cs) (rfold (add_claim mult) m cs).
Proof.
  intros Hn. assert (0 <= times mult) as Hn0 by (unfold times; destruct mult; lia). induction cs as [|[r0 x] cs IH]; intros m Hm; [apply f_Ok|]. cbn [rfold].
  assert (forall r, asked r ((r0, x) :: cs) = (if (r0 =? r)%N then Z.max 0 x else 0) + asked r cs) as Ha by (intros r; apply (asked_cons r (r0, x) cs)).
  apply f_bind.
  - unfold add_claim. cbn [fst snd]. apply f_bind; [apply f_guard; intros Hf; apply Z.ltb_ge in Hf; left; split; [reflexivity|]; exists (r0, x); split; [left|exact Hf]|]. intros [] Hx. apply guard_Ok, Z.ltb_lt in Hx.
    assert (forall z, times mult * x <= z -> DMAX < z -> False \/ DMAX < z) as _ by auto.
    apply f_bind.
    { destruct mult as [n|]; [|apply f_Ok]. cbn [times] in *. apply f_bind.
      - intros e He. exfalso. unfold dec_of_int, chk, in_dec in He. destruct (_ && _) eqn:Hb in He; [discriminate He|]. change (2 ^ 64 - 1) with 18446744073709551615 in Hn. apply andb_false_iff in Hb as [Hb|Hb]; apply Z.leb_gt in Hb; unfold dec, DMIN, DMAX, E18 in Hb; lia.
      - intros k Hk. apply dec_of_int_Ok in Hk as [-> _]. intros e He. right. unfold dmul, dec in He. rewrite Z.mul_assoc, Z.quot_mul in He by discriminate. unfold chk in He. destruct (in_dec (x * Z.of_N n)) eqn:Hi; [discriminate He|]. injection He as <-. split; [reflexivity|]. exists r0. rewrite Ha, N.eqb_refl.
        specialize (Hm r0). pose proof (asked_nonneg r0 cs) as Hq. assert (DMAX < x * Z.of_N n) as Hd. { unfold in_dec in Hi. apply andb_false_iff in Hi as [Hi|Hi]; apply Z.leb_gt in Hi; [|exact Hi]. assert (DMIN <= 0) by (vm_compute; discriminate). nia. }
        rewrite Z.max_r by lia. nia. }
    intros y Hy. assert (y = times mult * x) as ->. { destruct mult as [n|]; [bd Hy as (k & Hk & Hy); exact (dmul_dec _ _ _ _ Hk Hy)|apply Ok_inj in Hy; cbn; lia]. }
    apply f_bind; [|intros; apply f_Ok]. eapply f_mono; [apply f_dadd_over|]. intros e [-> Ho]. right. split; [reflexivity|]. exists r0. rewrite Ha, N.eqb_refl, Z.max_r by lia. pose proof (asked_nonneg r0 cs) as Hq. apply over_max in Ho; [|apply Hm|nia]. nia.
  - intros m1 H1. assert (nonneg_map m1 /\ forall r, default 0 (m1 !! r) = default 0 (m !! r) + times mult * (if (r0 =? r)%N then Z.max 0 x else 0)) as [Hm1 He1].
    { assert (rfold (add_claim mult) m [(r0, x)] = Ok m1) as Hf by (cbn [rfold]; rewrite H1; reflexivity). apply add_claims_total in Hf as [Hp Hf]. inversion Hp as [|? ? Hx _]; subst. cbn [snd] in Hx.
      assert (forall r, default 0 (m1 !! r) = default 0 (m !! r) + times mult * (if (r0 =? r)%N then Z.max 0 x else 0)) as G. { intros r. rewrite Hf, amount_cons. change (amount_in r []) with 0. unfold times, b_res, b_amt. cbn [fst snd]. rewrite Z.max_r by lia. rewrite Z.add_0_r. destruct mult; reflexivity. }
      split; [|exact G]. intros r. rewrite G. apply Z.add_nonneg_nonneg; [apply Hm|]. apply Z.mul_nonneg_nonneg; [exact Hn0|]. destruct (r0 =? r)%N; lia. }
    eapply f_mono; [apply IH; exact Hm1|]. intros e [(-> & c & Hc & Hx)|(-> & r & Hr)]; [left; split; [reflexivity|]; exists c; split; [right; exact Hc|exact Hx]|]. right. split; [reflexivity|]. exists r. rewrite Ha. rewrite He1 in Hr. rewrite Z.mul_add_distr_l, Z.add_assoc. exact Hr.
Qed.
Lemma f_code_claims l : forall m, nonneg_map m ->
  fails (fun e => e = EInvalidClaimAmount /\ (exists x c, x ∈ l /\ c ∈ fst (snd x) /\ snd c <= 0) \/ e = EMultiUseWithClaims /\ (exists x, x ∈ l /\ snd (snd x) <> 1%N /\ fst (snd x) <> []) \/
    e = EArithmetic /\ exists r, DMAX < default 0 (m !! r) + lsum (fun x => asked r (fst (snd x))) l) (rfold add_code_claims m l).
Proof.
  induction l as [|[h [cs n]] l IH]; intros m Hm; [apply f_Ok|]. cbn [rfold]. assert (forall r, 0 <= lsum (fun x : N * (claims * N) => asked r (fst (snd x))) l) as Hl by (intros r; apply lsum_nonneg; intros; apply asked_nonneg).
  apply f_bind.
  - unfold add_code_claims. destruct (N.eqb_spec n 1) as [->|Hne].
    + eapply f_mono; [apply (f_add_claims None); [cbn; lia|exact Hm]|]. intros e [(-> & c & Hc & Hx)|(-> & r & Hr)]; [left; split; [reflexivity|]; exists (h, (cs, 1%N)), c; split; [left|auto]|]. right; right. split; [reflexivity|]. exists r. rewrite lsum_cons. cbn [fst snd times] in *. specialize (Hl r). lia.
    + apply f_bind; [|intros; apply f_Ok]. apply f_guard. intros Hf. apply N.eqb_neq in Hf. right; left. split; [reflexivity|]. exists (h, (cs, n)). split; [left|]. cbn. split; [exact Hne|]. intros ->. apply Hf. reflexivity.
  - intros m1 H1. assert (nonneg_map m1 /\ forall r, default 0 (m1 !! r) = default 0 (m !! r) + asked r cs) as [Hm1 He1].
    { assert (rfold add_code_claims m [(h, (cs, n))] = Ok m1) as Hf by (cbn [rfold]; rewrite H1; reflexivity). apply add_code_claims_total in Hf as [Hp Hf]. inversion Hp as [|? ? [Hx Hy] _]; subst. cbn [snd fst] in Hx, Hy.
      assert (forall r, default 0 (m1 !! r) = default 0 (m !! r) + asked r cs) as G. { intros r. rewrite Hf, lsum_cons. cbn [fst snd]. change (lsum _ []) with 0. rewrite (asked_pos r cs Hx). destruct Hy as [-> | ->]; [change (amount_in r []) with 0; lia|lia]. }
      split; [|exact G]. intros r. rewrite G. specialize (Hm r). pose proof (asked_nonneg r cs). lia. }
    eapply f_mono; [apply IH; exact Hm1|]. intros e [(-> & y & c & Hc & Hx)|[(-> & y & Hc & Hx)|(-> & r & Hr)]]; [left; split; [reflexivity|]; exists y, c; split; [right; exact Hc|exact Hx]|right; left; split; [reflexivity|]; exists y; split; [right; exact Hc|exact Hx]|].
    right; right. split; [reflexivity|]. exists r. rewrite lsum_cons. cbn [fst snd]. rewrite He1 in Hr. lia.
Qed.
(** Tokens handed over, merged per kind. *)
Lemma def_some (m : gmap resource Z) r x : m !! r = Some x -> default 0 (m !! r) = x.
Proof. intros ->. reflexivity. Qed.
Lemma def_none (m : gmap resource Z) r : m !! r = None -> default 0 (m !! r) = 0.
Proof. intros ->. reflexivity. Qed.
Lemma f_map_tokens ts : Forall (fun b => 0 <= b_amt b) ts -> forall m, nonneg_map m ->
  fails (fun e => e = EArithmetic /\ exists r, DMAX < default 0 (m !! r) + amount_in r ts)
    (rfold (fun (m : gmap resource Z) t => match m !! b_res t with Some x => y ← dadd x (b_amt t); Ok (<[b_res t := y]> m) | None => Ok (<[b_res t := b_amt t]> m) end) m ts).
Proof.
  intros Hts. assert (forall r l, Forall (fun b => 0 <= b_amt b) l -> 0 <= amount_in r l) as Hpos. { intros r l Hl. unfold amount_in. apply lsum_nonneg. intros b Hb. rewrite Forall_forall in Hl. specialize (Hl b Hb). destruct (_ =? _)%N; lia. }
  induction Hts as [|b l Hb Hl IH]; intros m Hm; [apply f_Ok|]. cbn [rfold]. apply f_bind.
  - destruct (m !! b_res b) as [x|] eqn:Hx; [|apply f_Ok]. apply f_bind; [|intros; apply f_Ok]. eapply f_mono; [apply f_dadd_over|]. intros e [-> Ho]. split; [reflexivity|]. exists (b_res b). rewrite amount_cons, N.eqb_refl. specialize (Hpos (b_res b) l Hl). pose proof (Hm (b_res b)) as H0. pose proof (def_some _ _ _ Hx) as Hd. refine (eq_ind x (fun z => DMAX < z + _) _ _ (eq_sym Hd)). assert (0 <= x) as H1 by exact (eq_ind _ (fun z => 0 <= z) H0 _ Hd). apply over_max in Ho; [lia|exact H1|exact Hb].
  - intros m1 H1. assert (forall r, default 0 (m1 !! r) = default 0 (m !! r) + (if (b_res b =? r)%N then b_amt b else 0)) as G.
    { intros r. destruct (m !! b_res b) as [x|] eqn:Hx; [bd H1 as (y & Hy & H1); apply dadd_Ok in Hy as [-> _]|]; apply Ok_inj in H1; subst m1; rewrite map_ins; destruct (N.eqb_spec (b_res b) r) as [Heq|]; try (symmetry; apply Z.add_0_r); subst r; [exact (eq_sym (f_equal (fun z => z + b_amt b) (def_some _ _ _ Hx)))|exact (eq_sym (f_equal (fun z => z + b_amt b) (def_none _ _ Hx)))]. }
    assert (nonneg_map m1) as Hm1 by (intros r; rewrite G; apply Z.add_nonneg_nonneg; [apply Hm|destruct (b_res b =? r)%N; [exact Hb|apply Z.le_refl]]).
    eapply f_mono; [apply IH; exact Hm1|]. intros e (-> & r & Hr). split; [reflexivity|]. exists r. rewrite amount_cons. rewrite G in Hr. rewrite Z.add_assoc. exact Hr.
Qed.
Lemma map_tokens_units E ts : Forall (fun b => (unit_of E (b_res b) | b_amt b)) ts -> forall m m' : gmap resource Z, (forall r x, m !! r = Some x -> (unit_of E r | x)) ->
  rfold (fun (m : gmap resource Z) t => match m !! b_res t with Some x => y ← dadd x (b_amt t); Ok (<[b_res t := y]> m) | None => Ok (<[b_res t := b_amt t]> m) end) m ts = Ok m' -> forall r x, m' !! r = Some x -> (unit_of E r | x).
Proof.
  induction 1 as [|b l Hb Hl IH]; intros m m' Hm H; cbn [rfold] in H; [apply Ok_inj in H; subst; exact Hm|]. bd H as (m1 & H1 & H). apply (IH _ _) with (2 := H). intros r x Hx.
  destruct (m !! b_res b) as [y|] eqn:Hy; [bd H1 as (z & Hz & H1); apply dadd_Ok in Hz as [-> _]|]; apply Ok_inj in H1; subst m1; (destruct (decide (r = b_res b)) as [->|Hne]; [rewrite lookup_insert in Hx; injection Hx as <-|rewrite lookup_insert_ne in Hx by congruence; exact (Hm _ _ Hx)]); [apply Z.divide_add_r; [exact (Hm _ _ Hy)|exact Hb]|exact Hb].
Qed.
Lemma f_take_claims E (m total : gmap resource Z) : (forall r x, m !! r = Some x -> (unit_of E r | x) /\ 0 <= x <= DMAX) -> nonneg_map total ->
  fails (fun e => e = EInsufficientToken /\ exists r, default 0 (m !! r) < default 0 (total !! r)) (take_claims E m total).
Proof.
  intros Hm Ht. unfold take_claims. assert (forall l m0 out, NoDup (map fst l) -> (forall r x, (r, x) ∈ l -> total !! r = Some x /\ m0 !! r = m !! r) ->
    fails (fun e => e = EInsufficientToken /\ exists r, default 0 (m !! r) < default 0 (total !! r)) (rfold (take_claim E) (m0, out) l)) as Hg.
  { induction l as [|[r0 x] l IH]; intros m0 out Hnd Hl; [apply f_Ok|]. cbn [map fst] in Hnd. apply NoDup_cons in Hnd as [Hni Hnd]. destruct (Hl r0 x ltac:(left)) as [Hx H0]. cbn [rfold].
    assert (0 <= x) as Hx0 by (specialize (Ht r0); rewrite Hx in Ht; exact Ht).
    assert (fails (fun e => e = EInsufficientToken /\ exists r, default 0 (m !! r) < default 0 (total !! r)) (take_claim E (m0, out) (r0, x)) /\ forall m1 out1, take_claim E (m0, out) (r0, x) = Ok (m1, out1) -> forall r, r <> r0 -> m1 !! r = m0 !! r) as [F1 F2].
    { unfold take_claim. cbn [fst snd]. rewrite H0. destruct (m !! r0) as [have|] eqn:Hh.
      - destruct (Hm _ _ Hh) as [[k Hu] Hb]. split.
        + apply f_bind. { apply f_guard. intros Hf. apply Z.leb_gt in Hf. split; [reflexivity|]. exists r0. rewrite Hh, Hx. exact Hf. } intros [] Hle. apply guard_Ok, Z.leb_le in Hle. apply f_bind; [|intros; apply f_Ok].
          pose proof (unit_pos E r0) as Hup. unfold take_adv, round_amount. cbv zeta. set (u := unit_of E r0) in *. assert (0 <= - ((- x) / u) * u <= have) as Hc.
          { pose proof (Z.div_mod (- x) u ltac:(lia)) as Hd. pose proof (Z.mod_pos_bound (- x) u Hup) as Hmo. assert (- k <= (- x) / u) by (apply Z.div_le_lower_bound; [exact Hup|subst have; lia]). split; [lia|]. subst have. nia. }
          assert (chk (- ((- x) / u) * u) = Ok (- ((- x) / u) * u)) as ->. { apply chk_Ok. split; [reflexivity|]. split; [|lia]. apply Z.le_trans with 0; [vm_compute; discriminate|lia]. }
          cbn [mbind res_bind]. apply f_bind; [|intros; apply f_Ok]. apply f_guard. intros Hf. exfalso. apply andb_false_iff in Hf as [Hf|Hf]; apply Z.leb_gt in Hf; lia.
        + intros m1 out1 H r Hr. bd H as (? & _ & H). bd H as (a & _ & H). apply Ok_inj in H. injection H as <- _. rewrite lookup_insert_ne by congruence. reflexivity.
      - split; [|intros m1 out1 H r Hr; bd H as (? & _ & H); apply Ok_inj in H; injection H as <- _; reflexivity]. apply f_bind; [|intros; apply f_Ok]. apply f_guard. intros Hf. apply Z.eqb_neq in Hf. split; [reflexivity|]. exists r0. rewrite Hh, Hx. cbn. lia. }
    apply f_bind; [exact F1|]. intros [m1 out1] H1. apply IH; [exact Hnd|]. intros r y Hy. destruct (Hl r y ltac:(right; exact Hy)) as [A B]. split; [exact A|]. rewrite (F2 _ _ H1); [exact B|]. intros ->. apply Hni. apply elem_of_list_In, in_map_iff. exists (r0, y). split; [reflexivity|apply elem_of_list_In; exact Hy]. }
  apply Hg; [exact (NoDup_fst_map_to_list total)|]. intros r x Hx. split; [apply elem_of_map_to_list; exact Hx|reflexivity].
Qed.
Lemma f_tokens w ids c ts : get_config w ids = Ok c -> fails (fun e => e = EInvalidCollateral /\ (exists b, b ∈ ts /\ b_res b <> BASE /\ coll_cfg w (b_res b) = None)) (assert_ref_tokens c ts).
Proof.
  intros Hcf. unfold assert_ref_tokens. apply (f_rfold _ (fun _ => True)); [|auto|exact I]. intros [] b Hb _. destruct (is_base b) eqn:Hbb; [apply f_Ok|]. unfold x_assert_valid_collateral. apply f_guard. intros Hf. apply bool_decide_eq_false in Hf. split; [reflexivity|]. exists b. split; [exact Hb|]. split; [unfold is_base in Hbb; apply N.eqb_neq in Hbb; exact Hbb|].
  destruct (vc_new_spec _ _ _ Hcf) as (_ & C2 & _). unfold coll_cfg, g_collateral_configs. rewrite <- C2. apply eq_None_not_Some. exact Hf.
Qed.
(** Tokens merged, claims taken out, the rest put away. *)
Lemma put_over E w (ts : list bucket) m total rest taken : gen_ok (w_gen w) -> Forall (fun b => 0 <= b_amt b) ts -> map_tokens ts = Ok m -> nonneg_map total -> take_claims E m total = Ok (rest, taken) ->
  fails (fun e => e = EArithmetic /\ exists r, DMAX < default 0 (gn_vaults (w_gen w) !! r) + amount_in r ts) (vts_put_batch (gn_vaults (w_gen w)) taken).
Proof.
  intros K Hts Hm Ht Hk. eapply f_mono; [apply (f_put_batch _ _ (gn_vaults (w_gen w))); reflexivity|]. intros e (-> & l' & b & L1 & L2 & L3). split; [reflexivity|]. exists (b_res b). set (r := b_res b) in *.
  assert (Forall (fun b => 0 <= b_amt b) taken) as Htk.
  { clear - Hk Ht. unfold take_claims in Hk. assert (forall l s s', Forall (fun c => 0 <= snd c) l -> rfold (take_claim E) s l = Ok s' -> Forall (fun b : bucket => 0 <= b_amt b) (snd s) -> Forall (fun b : bucket => 0 <= b_amt b) (snd s')) as Hg.
    { induction l as [|[r x] l IH]; intros [m0 o0] s' Hl H Hs; cbn [rfold] in H; [apply Ok_inj in H; subst; exact Hs|]. bd H as ([m1 o1] & H1 & H). inversion Hl as [|? ? Hx Hl']; subst. apply (IH _ _ Hl' H). cbn [snd] in *. unfold take_claim in H1. cbn [fst snd] in H1. destruct (m0 !! r) as [have|].
      - bd H1 as (? & _ & H1). bd H1 as (a & Ha & H1). apply Ok_inj in H1. injection H1 as <- <-. apply Forall_app. split; [exact Hs|]. constructor; [|constructor]. cbn. unfold take_adv in Ha. bd Ha as (y & _ & Ha). bd Ha as (? & Hg & Ha). apply Ok_inj in Ha. subst y. apply guard_Ok, andb_true_iff in Hg as [Hg _]. apply Z.leb_le in Hg. exact Hg.
      - bd H1 as (? & _ & H1). apply Ok_inj in H1. injection H1 as <- <-. exact Hs. }
    apply (Hg _ _ _) in Hk; [exact Hk| |constructor]. apply Forall_forall. intros [r x] Hx. apply elem_of_map_to_list in Hx. specialize (Ht r). rewrite Hx in Ht. exact Ht. }
  assert (0 <= default 0 (gn_vaults (w_gen w) !! r)) as Hv. { pose proof (gk_solvent _ K r) as Hs. change (default 0 (gn_vaults (w_gen w) !! r)) with (held_by (w_gen w) r). enough (0 <= codes_owe (w_gen w) r /\ 0 <= allocs_owe (w_gen w) r) by lia. split.
    - unfold codes_owe. apply msum_nonneg. intros k c Hc. destruct (gk_code _ K _ _ Hc) as (Q1 & _ & Q & _). pose proof (amount_pos r _ Q). unfold uses_left. nia.
    - unfold allocs_owe. apply msum_nonneg. intros id l Hl. apply lsum_nonneg. intros al Hal. destruct (gk_alloc _ K _ _ _ Hl Hal) as [Q1 Q]. pose proof (amount_pos r _ Q). unfold slots_left. nia. }
  assert (forall l, Forall (fun b : bucket => 0 <= b_amt b) l -> 0 <= amount_in r l) as Hpos. { intros l Hl. unfold amount_in. apply lsum_nonneg. intros x Hx. rewrite Forall_forall in Hl. specialize (Hl x Hx). destruct (_ =? _)%N; lia. }
  destruct L1 as [l2 ->]. apply Forall_app in Htk as [Ht1 Ht2]. assert (amount_in r (l' ++ l2) <= amount_in r ts) as Hle.
  { pose proof (take_claims_amount _ r _ _ _ _ Hk) as Q. pose proof (map_tokens_amount r _ _ Hm) as Q2. assert (0 <= default 0 (rest !! r)); [|lia].
    clear - Hk Hts Hm. assert (nonneg_map m) as Hmm. { intros q. rewrite (map_tokens_amount q _ _ Hm). unfold amount_in. apply lsum_nonneg. intros x Hx. rewrite Forall_forall in Hts. specialize (Hts x Hx). destruct (_ =? _)%N; lia. }
    unfold take_claims in Hk. assert (forall l s s', rfold (take_claim E) s l = Ok s' -> nonneg_map (fst s) -> nonneg_map (fst s')) as Hg.
    { induction l as [|[q x] l IH]; intros [m0 o0] s' H Hs; cbn [rfold] in H; [apply Ok_inj in H; subst; exact Hs|]. bd H as ([m1 o1] & H1 & H). apply (IH _ _ H). cbn [fst] in *. unfold take_claim in H1. cbn [fst snd] in H1. destruct (m0 !! q) as [have|].
      - bd H1 as (? & _ & H1). bd H1 as (a & Ha & H1). apply Ok_inj in H1. injection H1 as <- <-. intros z. rewrite map_ins. destruct (q =? z)%N; [|apply Hs]. unfold take_adv in Ha. bd Ha as (y & _ & Ha). bd Ha as (? & Hg & Ha). apply Ok_inj in Ha. subst y. apply guard_Ok, andb_true_iff in Hg as [_ Hg]. apply Z.leb_le in Hg. lia.
      - bd H1 as (? & _ & H1). apply Ok_inj in H1. injection H1 as <- <-. exact Hs. }
    exact (Hg _ _ _ Hk Hmm r). }
  rewrite amount_app in Hle. pose proof (Hpos l2 Ht2). apply over_max in L3; [|exact Hv|apply Hpos; exact Ht1]. change (default 0 (gn_vaults (w_gen w) !! r)) with (default 0 ((gn_vaults (w_gen w) : gmap resource Z) !! r)) in *. lia.
Qed.
