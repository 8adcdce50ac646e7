(** * The referral generator's accounts (for C35, C36). *)
From Verif Require Import Base DFloat Lists Types Config Oracle Pool Account Fees Referral ExInternal Exchange System Scenario Sums Trace Frames Calls Shape Spec SpecReferral P_Ledger P_Accounts Witness Frames2 P_Fees P_Tokens P_Refs P_Whole.

Definition pos_claims (cs : claims) : Prop := Forall (fun c => 0 < snd c) cs.
Lemma amount_pos r cs : pos_claims cs -> 0 <= amount_in r cs.
Proof. intros H. unfold amount_in. apply lsum_nonneg. intros c Hc. unfold pos_claims in H. rewrite Forall_forall in H. specialize (H _ Hc). cbn beta in H. destruct (b_res c =? r)%N; unfold b_amt; lia. Qed.
Lemma map_ins (v : gmap resource Z) (k r : resource) (x : Z) : default 0 ((<[k := x]> v : gmap resource Z) !! r) = if (k =? r)%N then x else default 0 (v !! r).
Proof. destruct (N.eqb_spec k r) as [->|Hn]; [rewrite lookup_insert; reflexivity|rewrite lookup_insert_ne by exact Hn; reflexivity]. Qed.
Lemma dmul_dec x n k y : dec_of_int (Z.of_N n) = Ok k -> dmul x k = Ok y -> y = Z.of_N n * x.
Proof.
  intros H1 H2. apply dec_of_int_Ok in H1 as [-> _]. apply dmul_Ok in H2 as [-> _]. unfold dec. rewrite Z.mul_assoc, Z.quot_mul by discriminate. lia.
Qed.
Lemma add_claims_total (mult : option N) cs : forall m m', rfold (add_claim mult) m cs = Ok m' ->
  pos_claims cs /\ forall r, default 0 (m' !! r) = default 0 (m !! r) + (match mult with Some n => Z.of_N n | None => 1 end) * amount_in r cs.
Proof.
  induction cs as [|[r0 x] cs IH]; intros m m' H; cbn [rfold] in H.
  - apply Ok_inj in H. subst. split; [constructor|]. intros r. change (amount_in r []) with 0. lia.
  - bd H as (m1 & H1 & H). unfold add_claim in H1. bd H1 as (u & Hp & H1). bd H1 as (y & Hy & H1). bd H1 as (z & Hz & H1). apply Ok_inj in H1. subst m1. destruct (IH _ _ H) as [I1 I2]. apply guard_Ok, Z.ltb_lt in Hp. cbn [fst snd] in *.
    split; [constructor; assumption|]. intros r. rewrite I2, amount_cons, map_ins. cbn [b_res b_amt fst snd]. apply dadd_Ok in Hz as [-> _].
    assert (y = match mult with Some n => Z.of_N n | None => 1 end * x) as ->. { destruct mult as [n|]; [bd Hy as (k & Hk & Hy); exact (dmul_dec _ _ _ _ Hk Hy)|apply Ok_inj in Hy; lia]. }
    destruct (N.eqb_spec r0 r) as [->|Hn]; lia.
Qed.
Definition code_claims (x : N * (claims * N)) : Prop := pos_claims (fst (snd x)) /\ (fst (snd x) = [] \/ snd (snd x) = 1%N).
Lemma add_code_claims_total l : forall m m', rfold add_code_claims m l = Ok m' ->
  Forall code_claims l /\ forall r, default 0 (m' !! r) = default 0 (m !! r) + lsum (fun x => Z.of_N (snd (snd x)) * amount_in r (fst (snd x))) l.
Proof.
  induction l as [|[h [cs n]] l IH]; intros m m' H; cbn [rfold] in H.
  - apply Ok_inj in H. subst. split; [constructor|]. intros r. cbn. lia.
  - bd H as (m1 & H1 & H). destruct (IH _ _ H) as [I1 I2]. unfold add_code_claims in H1. destruct (N.eqb_spec n 1) as [->|Hn].
    + destruct (add_claims_total _ _ _ _ H1) as [A1 A2]. split; [constructor; [split; [exact A1|right; reflexivity]|exact I1]|]. intros r. rewrite I2, A2, lsum_cons. cbn [fst snd]. lia.
    + bd H1 as (u & Hg & H1). apply guard_Ok in Hg. apply N.eqb_eq in Hg. destruct cs; [|cbn in Hg; lia]. apply Ok_inj in H1. subst m1. split; [constructor; [split; [constructor|left; reflexivity]|exact I1]|]. intros r. rewrite I2, lsum_cons. cbn [fst snd]. change (amount_in r []) with 0. lia.
Qed.
Lemma round_up E r amt a : round_amount E r ToInfinity amt = Ok a -> amt <= a.
Proof.
  unfold round_amount. cbv zeta. intros H. apply chk_Ok in H as [-> _]. pose proof (unit_pos E r) as Hu. pose proof (Z.div_mod (- amt) (unit_of E r) ltac:(lia)). pose proof (Z.mod_pos_bound (- amt) (unit_of E r) Hu). lia.
Qed.
Lemma round_down E r amt a : 0 <= amt -> round_amount E r ToZero amt = Ok a -> 0 <= a <= amt.
Proof.
  unfold round_amount. cbv zeta. intros Hp H. apply chk_Ok in H as [-> _]. pose proof (unit_pos E r) as Hu. rewrite Z.quot_div_nonneg by lia. pose proof (Z.div_mod amt (unit_of E r) ltac:(lia)). pose proof (Z.mod_pos_bound amt (unit_of E r) Hu). pose proof (Z.div_pos amt (unit_of E r) Hp Hu). nia.
Qed.
Lemma take_claims_covers E m total rest taken : take_claims E m total = Ok (rest, taken) -> forall r, default 0 (total !! r) <= amount_in r taken.
Proof.
  unfold take_claims. assert (forall l s s', rfold (take_claim E) s l = Ok s' -> forall r, amount_in r (snd s) + amount_in r l <= amount_in r (snd s')) as Hg.
  { induction l as [|[r0 x] l IH]; intros [m0 o0] s' H r; cbn [rfold] in H; [apply Ok_inj in H; subst; change (amount_in r []) with 0; lia|]. bd H as ([m1 o1] & H1 & H). specialize (IH _ _ H r). cbn [snd] in *. rewrite amount_cons. cbn [b_res b_amt fst snd].
    unfold take_claim in H1. cbn [fst snd] in H1. destruct (m0 !! r0) as [have|].
    - bd H1 as (u & _ & H1). bd H1 as (a & Ha & H1). apply Ok_inj in H1. injection H1 as <- <-. rewrite amount_app, amount_cons in IH. cbn [b_res b_amt fst snd] in IH. change (amount_in r []) with 0 in IH. apply take_adv_inv in Ha as [Ha _]. apply round_up in Ha. destruct (r0 =? r)%N; lia.
    - bd H1 as (u & Hu & H1). apply Ok_inj in H1. injection H1 as <- <-. apply guard_Ok, Z.eqb_eq in Hu. destruct (r0 =? r)%N; lia. }
  intros H r. specialize (Hg _ _ _ H r). cbn [snd] in Hg. rewrite amount_map in Hg. change (amount_in r []) with 0 in Hg. lia.
Qed.
Lemma take_batch_le E cs : forall v v' bs, pos_claims cs -> vts_take_adv_batch E v cs ToZero = Ok (v', bs) -> forall r, 0 <= amount_in r bs <= amount_in r cs.
Proof.
  induction cs as [|[r0 x] cs IH]; intros v v' bs Hp H r; cbn [vts_take_adv_batch] in H; [apply Ok_inj in H; injection H as <- <-; change (amount_in r []) with 0; lia|].
  bd H as ([v1 b] & H1 & H). bd H as ([v2 bs2] & H2 & H). apply Ok_inj in H. injection H as <- <-. inversion Hp as [|? ? P1 P2]; subst. specialize (IH _ _ _ P2 H2 r). unfold vts_take_adv in H1. bd H1 as (a & Ha & H1). apply Ok_inj in H1. injection H1 as <- <-. apply take_adv_inv in Ha as [Ha _]. cbn in P1. apply round_down in Ha; [|lia].
  rewrite !amount_cons. cbn [b_res b_amt fst snd]. destruct (r0 =? r)%N; lia.
Qed.
Lemma insert_codes_sum {A} (f : A -> N * rcode) (g : rcode -> Z) (l : list A) : forall m m', rfold (fun cd x => insert_code cd (fst (f x)) (snd (f x))) m l = Ok m' ->
  msum (fun _ c => g c) m' = msum (fun _ c => g c) m + lsum (fun x => g (snd (f x))) l.
Proof.
  induction l as [|x l IH]; intros m m' H; cbn [rfold] in H; [apply Ok_inj in H; subst; cbn; lia|]. bd H as (m1 & H1 & H). unfold insert_code in H1. bd H1 as (u & Hg & H1). apply guard_Ok, bool_decide_eq_true in Hg. apply Ok_inj in H1. subst m1.
  rewrite (IH _ _ H), lsum_cons, msum_insert_new by exact Hg. lia.
Qed.
Lemma insert_codes_keep {A} (f : A -> N * rcode) (l : list A) : forall m m' h c, rfold (fun cd x => insert_code cd (fst (f x)) (snd (f x))) m l = Ok m' -> m !! h = Some c -> m' !! h = Some c.
Proof.
  induction l as [|x l IH]; intros m m' h c H Hh; cbn [rfold] in H; [apply Ok_inj in H; subst; exact Hh|]. bd H as (m1 & H1 & H). unfold insert_code in H1. bd H1 as (u & Hg & H1). apply guard_Ok, bool_decide_eq_true in Hg. apply Ok_inj in H1. subst m1.
  apply (IH _ _ _ _ H). rewrite lookup_insert_ne; [exact Hh|]. intros Heq. rewrite Heq in Hg. congruence.
Qed.
(** The promises, at the level of the component. *)
Definition codes_owe (g : generator) (r : resource) : Z := msum (fun _ c => uses_left c * amount_in r (rc_claims c)) (gn_codes g).
Definition allocs_owe (g : generator) (r : resource) : Z := msum (fun _ l => lsum (fun a => slots_left a * amount_in r (ra_claims a)) l) (gn_allocs g).
Definition held_by (g : generator) (r : resource) : Z := default 0 (gn_vaults g !! r).
Definition codes_of (g : generator) (id : N) : Z := msum (fun _ c => if (rc_ref c =? id)%N then Z.of_N (rc_max c) else 0) (gn_codes g).
Definition uses_of (g : generator) (id : N) : Z := msum (fun _ c => if (rc_ref c =? id)%N then Z.of_N (rc_count c) else 0) (gn_codes g).
Definition slots_of (g : generator) (id : N) : Z := lsum slots_left (default [] (gn_allocs g !! id)).
Definition U64 : N := 18446744073709551615.
Record gen_ok (g : generator) : Prop := {
  gk_code : forall h c, gn_codes g !! h = Some c -> (rc_count c <= rc_max c)%N /\ (rc_max c <= U64)%N /\ pos_claims (rc_claims c) /\ (rc_claims c = [] \/ rc_max c = 1%N);
  gk_alloc : forall id l a, gn_allocs g !! id = Some l -> a ∈ l -> (ra_count a <= ra_max a)%N /\ pos_claims (ra_claims a);
  gk_vault : forall r x, gn_vaults g !! r = Some x -> x <= DMAX;
  gk_solvent : forall r, codes_owe g r + allocs_owe g r <= held_by g r }.
Lemma gen_ok_new : gen_ok gn_new.
Proof.
  constructor.
  - intros h c H. change ((∅ : gmap N rcode) !! h = Some c) in H. rewrite lookup_empty in H. discriminate.
  - intros id l a H. change ((∅ : gmap N (list ralloc)) !! id = Some l) in H. rewrite lookup_empty in H. discriminate.
  - intros r x H. change ((∅ : gmap resource Z) !! r = Some x) in H. rewrite lookup_empty in H. discriminate.
  - intros r. unfold codes_owe, allocs_owe, held_by. change (gn_codes gn_new) with (∅ : gmap N rcode). change (gn_allocs gn_new) with (∅ : gmap N (list ralloc)). rewrite !msum_empty. change (0 + 0 <= default 0 ((∅ : gmap resource Z) !! r)). rewrite lookup_empty. cbn. lia.
Qed.
Lemma put_batch_max bs : forall v v', vts_put_batch v bs = Ok v' -> (forall r x, v !! r = Some x -> x <= DMAX) -> forall r x, v' !! r = Some x -> x <= DMAX.
Proof.
  unfold vts_put_batch. induction bs as [|b bs IH]; intros v v' H Hv; cbn [rfold] in H; [apply Ok_inj in H; subst; exact Hv|]. bd H as (v1 & H1 & H). apply (IH _ _ H). unfold vts_put in H1. bd H1 as (y & Hy & H1). apply Ok_inj in H1. subst v1. apply dadd_Ok in Hy as [-> Hy].
  intros r x Hx. destruct (decide (r = b_res b)) as [->|Hne]; [|change vaults with (gmap resource Z) in *; rewrite lookup_insert_ne in Hx by congruence; exact (Hv _ _ Hx)]. change vaults with (gmap resource Z) in *. rewrite lookup_insert in Hx. injection Hx as <-. lia.
Qed.
Lemma take_batch_max E cs : forall v v' bs, vts_take_adv_batch E v cs ToZero = Ok (v', bs) -> (forall r x, v !! r = Some x -> x <= DMAX) -> forall r x, v' !! r = Some x -> x <= DMAX.
Proof.
  induction cs as [|[r0 y] cs IH]; intros v v' bs H Hv; cbn [vts_take_adv_batch] in H; [apply Ok_inj in H; injection H as <- <-; exact Hv|].
  bd H as ([v1 b] & H1 & H). bd H as ([v2 bs2] & H2 & H). apply Ok_inj in H. injection H as <- <-. apply (IH _ _ _ H2). unfold vts_take_adv in H1. bd H1 as (a & Ha & H1). apply Ok_inj in H1. injection H1 as <- <-. apply take_adv_inv in Ha as [_ Ha].
  intros r x Hx. change vaults with (gmap resource Z) in *. destruct (decide (r = r0)) as [->|Hne]; [|rewrite lookup_insert_ne in Hx by congruence; exact (Hv _ _ Hx)]. rewrite lookup_insert in Hx. injection Hx as <-. assert (vts_amount v r0 <= DMAX) as Hb; [|lia]. change (default 0 ((v : gmap resource Z) !! r0) <= DMAX). destruct ((v : gmap resource Z) !! r0) as [z|] eqn:Ez; [exact (Hv _ _ Ez)|vm_compute; discriminate].
Qed.
Lemma add_allocation_ok E g ts id cs n g' rest i : gn_add_allocation E g ts id cs n = Ok (g', rest, i) -> gen_ok g ->
  gen_ok g' /\ gn_codes g' = gn_codes g /\ i = N.of_nat (length (default [] (gn_allocs g !! id))) /\ gn_allocs g' = <[id := default [] (gn_allocs g !! id) ++ [mkRA cs 0 n]]> (gn_allocs g).
Proof.
  unfold gn_add_allocation. intros H [K1 K2 K3 K4]. bd H as (m & H1 & H). bd H as (tot & H2 & H). bd H as ([rm taken] & H3 & H). bd H as (v & H4 & H). apply Ok_inj in H. injection H as <- <- <-. destruct (add_claims_total _ _ _ _ H2) as [Hp Ht].
  split; [|split; [reflexivity|split; reflexivity]]. constructor; cbn.
  - exact K1.
  - intros id0 l a Hl Ha. destruct (decide (id0 = id)) as [->|Hne]; [|rewrite lookup_insert_ne in Hl by congruence; exact (K2 _ _ _ Hl Ha)]. rewrite lookup_insert in Hl. injection Hl as <-. apply elem_of_app in Ha as [Ha|Ha].
    + destruct (gn_allocs g !! id) as [l0|] eqn:El; [exact (K2 _ _ _ El Ha)|inversion Ha].
    + apply elem_of_list_singleton in Ha. subst a. cbn. split; [lia|exact Hp].
  - exact (put_batch_max _ _ _ H4 K3).
  - intros r. specialize (K4 r). unfold codes_owe, allocs_owe, held_by in *. cbn. rewrite msum_insert. rewrite lsum_app, lsum_cons. cbn [lsum foldr]. apply (vts_put_batch_amount r) in H4. change vaults with (gmap resource Z) in *. rewrite H4.
    pose proof (take_claims_covers _ _ _ _ _ H3 r) as Hc. rewrite Ht, lookup_empty in Hc. unfold slots_left at 2. cbn [ra_max ra_count ra_claims]. cbn [default from_option] in Hc. destruct (gn_allocs g !! id) as [l0|]; [change (default [] (Some l0)) with l0; lia|change (default [] None) with (@nil ralloc); match goal with |- context [lsum ?f []] => change (lsum f []) with 0 end; lia].
Qed.
Lemma create_codes_ok E g ts id hs g' rest n : gn_create_codes E g ts id hs = Ok (g', rest) -> rfold (fun n x => uadd n (snd (snd x))) 0%N (map_to_list hs) = Ok n -> gen_ok g ->
  gen_ok g' /\ gn_allocs g' = gn_allocs g /\ (forall h c, gn_codes g !! h = Some c -> gn_codes g' !! h = Some c) /\
  (forall j, codes_of g' j = codes_of g j + (if (id =? j)%N then Z.of_N n else 0)) /\ (forall j, uses_of g' j = uses_of g j).
Proof.
  unfold gn_create_codes. intros H Hn [K1 K2 K3 K4]. bd H as (m & H1 & H). bd H as (tot & H2 & H). bd H as ([rm taken] & H3 & H). bd H as (codes & H5 & H). bd H as (v & H4 & H). apply Ok_inj in H. injection H as <- <-. destruct (add_code_claims_total _ _ _ H2) as [Hp Ht].
  set (f := fun x : N * (claims * N) => (fst x, mkRC id (fst (snd x)) 0 (snd (snd x)))).
  assert (forall l a b, rfold (fun n (x : N * (claims * N)) => uadd n (snd (snd x))) a l = Ok b -> (a <= b)%N /\ Z.of_N b = Z.of_N a + lsum (fun x => Z.of_N (snd (snd x))) l /\ ((a <= U64)%N -> (b <= U64)%N)) as Hsum.
  { induction l as [|x l IH]; intros a b Hf; cbn [rfold] in Hf; [apply Ok_inj in Hf; subst; cbn; split; [lia|split; [lia|auto]]|]. bd Hf as (a1 & Ha & Hf). apply uadd_Ok in Ha as [-> Ha]. destruct (IH _ _ Hf) as (I1 & I2 & I3). rewrite lsum_cons. split; [lia|]. split; [lia|]. intros _. apply I3. exact Ha. }
  destruct (Hsum _ _ _ Hn) as (_ & Hsm & Hu64). specialize (Hu64 ltac:(unfold U64; lia)).
  split; [|split; [reflexivity|split; [|split]]]; [constructor; cbn| | |].
  - intros h c Hc. destruct (insert_codes f _ _ _ H5 _ _ Hc) as [Hold|([h0 [cs k]] & Hin & Hf)]; [exact (K1 _ _ Hold)|]. injection Hf as -> <-. cbn. split; [lia|]. rewrite Forall_forall in Hp. destruct (Hp _ Hin) as [P1 P2]. cbn in P1, P2. split; [|split; assumption].
    assert (Z.of_N k <= lsum (fun x : N * (claims * N) => Z.of_N (snd (snd x))) (map_to_list hs)) as Hk; [|assert (k <= n)%N as Hkn by (apply N2Z.inj_le; rewrite Hsm; exact Hk); exact (N.le_trans _ _ _ Hkn Hu64)]. clear - Hin. induction (map_to_list hs) as [|y l IH]; [inversion Hin|]. rewrite lsum_cons. pose proof (lsum_nonneg (fun x : N * (claims * N) => Z.of_N (snd (snd x))) l ltac:(intros x0 _; cbv beta; lia)). apply elem_of_cons in Hin as [<-|Hin]; [cbn [fst snd]; lia|]. specialize (IH Hin). lia.
  - exact K2.
  - exact (put_batch_max _ _ _ H4 K3).
  - intros r. specialize (K4 r). unfold codes_owe, allocs_owe, held_by in *. cbn. rewrite (insert_codes_sum f (fun c => uses_left c * amount_in r (rc_claims c)) _ _ _ H5). apply (vts_put_batch_amount r) in H4. change vaults with (gmap resource Z) in *. rewrite H4.
    pose proof (take_claims_covers _ _ _ _ _ H3 r) as Hc. rewrite Ht, lookup_empty in Hc. cbn [default from_option] in Hc.
    rewrite (lsum_ext _ (fun x : N * (claims * N) => Z.of_N (snd (snd x)) * amount_in r (fst (snd x)))); [match type of Hc with _ + ?t <= _ => set (T := t) in * end; match goal with |- context [lsum ?f (map_to_list hs)] => change (lsum f (map_to_list hs)) with T end; lia|]. intros x _. unfold uses_left, f. cbn [snd fst rc_max rc_count rc_claims]. change (Z.of_N 0) with 0. rewrite Z.sub_0_r. reflexivity.
  - intros h c Hc. cbn. exact (insert_codes_keep f _ _ _ _ _ H5 Hc).
  - intros j. unfold codes_of. cbn. rewrite (insert_codes_sum f (fun c => if (rc_ref c =? j)%N then Z.of_N (rc_max c) else 0) _ _ _ H5). cbn. destruct (id =? j)%N; [lia|]. rewrite lsum_zero by reflexivity. lia.
  - intros j. unfold uses_of. cbn. rewrite (insert_codes_sum f (fun c => if (rc_ref c =? j)%N then Z.of_N (rc_count c) else 0) _ _ _ H5). rewrite lsum_zero; [lia|]. intros x _. cbn. destruct (id =? j)%N; reflexivity.
Qed.
Lemma lsum_replace {A} (f : A -> Z) (l : list A) i x y : l !! i = Some x -> lsum f (<[i := y]> l) = lsum f l + f y - f x.
Proof.
  revert i. induction l as [|z l IH]; intros [|i] H; cbn in H; try discriminate.
  - injection H as ->. cbn [insert list_insert]. rewrite !lsum_cons. lia.
  - change (<[S i := y]> (z :: l)) with (z :: <[i := y]> l). rewrite !lsum_cons, (IH _ H). lia.
Qed.
Lemma lsum_const {A} (k : Z) (l : list A) : lsum (fun _ => k) l = Z.of_nat (length l) * k.
Proof. induction l; [reflexivity|]. rewrite lsum_cons, IHl. cbn [length]. lia. Qed.
Lemma from_alloc_ok g id i hs g' : gn_create_from_alloc g id i hs = Ok g' -> gen_ok g ->
  exists l a, gn_allocs g !! id = Some l /\ l !! N.to_nat i = Some a /\ (ra_count a + N.of_nat (size hs) <= ra_max a)%N /\
  gen_ok g' /\ gn_allocs g' = <[id := <[N.to_nat i := a <| ra_count := (ra_count a + N.of_nat (size hs))%N |>]> l]> (gn_allocs g) /\ (forall h c, gn_codes g !! h = Some c -> gn_codes g' !! h = Some c) /\
  (forall j, codes_of g' j = codes_of g j + (if (id =? j)%N then Z.of_nat (size hs) else 0)) /\ (forall j, uses_of g' j = uses_of g j).
Proof.
  unfold gn_create_from_alloc. intros H [K1 K2 K3 K4]. bd H as (l & Hl & H). bd H as (a & Ha & H). bd H as (k & Hk & H). bd H as (u & Hg & H). bd H as (codes & H5 & H). apply Ok_inj in H. subst g'. apply expect_Ok in Hl, Ha. apply uadd_Ok in Hk as [-> _]. apply guard_Ok, N.leb_le in Hg.
  exists l, a. split; [exact Hl|]. split; [exact Ha|]. split; [exact Hg|]. set (f := fun x : N => (x, mkRC id (ra_claims a) 0 1)). assert (a ∈ l) as Hal by (eapply elem_of_list_lookup_2; exact Ha). destruct (K2 _ _ _ Hl Hal) as [A1 A2].
  assert (forall z, lsum (fun _ : N => z) (elements hs) = Z.of_nat (size hs) * z) as Hcon by (intros z; rewrite lsum_const; reflexivity).
  split; [|split; [reflexivity|split; [|split]]]; [constructor; cbn| | |].
  - intros h c Hc. destruct (insert_codes f _ _ _ H5 _ _ Hc) as [Hold|(h0 & Hin & Hf)]; [exact (K1 _ _ Hold)|]. injection Hf as -> <-. cbn. split; [lia|]. split; [unfold U64; lia|]. split; [exact A2|right; reflexivity].
  - intros id0 l0 b Hl0 Hb. destruct (decide (id0 = id)) as [->|Hne]; [|rewrite lookup_insert_ne in Hl0 by congruence; exact (K2 _ _ _ Hl0 Hb)]. rewrite lookup_insert in Hl0. injection Hl0 as <-. apply elem_of_list_lookup_1 in Hb as (j & Hb). destruct (decide (j = N.to_nat i)) as [->|Hj].
    + rewrite list_lookup_insert in Hb by (apply lookup_lt_Some in Ha; exact Ha). injection Hb as <-. cbn. split; [exact Hg|exact A2].
    + rewrite list_lookup_insert_ne in Hb by congruence. apply (K2 _ _ _ Hl). eapply elem_of_list_lookup_2; exact Hb.
  - exact K3.
  - intros r. specialize (K4 r). unfold codes_owe, allocs_owe, held_by in *. cbn. rewrite (insert_codes_sum f (fun c => uses_left c * amount_in r (rc_claims c)) _ _ _ H5). rewrite (msum_insert_some _ _ _ _ _ Hl), (lsum_replace _ _ _ _ _ Ha). cbn [ra_claims]. rewrite (lsum_ext _ (fun _ => amount_in r (ra_claims a))) by (intros x _; unfold uses_left, f; cbn [snd fst rc_max rc_count rc_claims]; change (Z.of_N 1 - Z.of_N 0) with 1; rewrite Z.mul_1_l; reflexivity). rewrite Hcon. match goal with |- context [slots_left (a <| ra_count := ?n |>)] => assert (slots_left (a <| ra_count := n |>) = slots_left a - Z.of_nat (size hs)) as -> by (unfold slots_left; cbn [ra_max ra_count set]; lia) end. rewrite Z.mul_sub_distr_r. match goal with |- context [ra_claims (a <| ra_count := ?n |>)] => change (ra_claims (a <| ra_count := n |>)) with (ra_claims a) end. lia.
  - intros h c Hc. cbn. exact (insert_codes_keep f _ _ _ _ _ H5 Hc).
  - intros j. unfold codes_of. cbn. rewrite (insert_codes_sum f (fun c => if (rc_ref c =? j)%N then Z.of_N (rc_max c) else 0) _ _ _ H5). cbn. destruct (id =? j)%N; rewrite Hcon; lia.
  - intros j. unfold uses_of. cbn. rewrite (insert_codes_sum f (fun c => if (rc_ref c =? j)%N then Z.of_N (rc_count c) else 0) _ _ _ H5). rewrite lsum_zero; [lia|]. intros x _. cbn. destruct (id =? j)%N; reflexivity.
Qed.
Lemma claim_ok E g h g' id bs : gn_claim E g h = Ok (g', id, bs) -> gen_ok g ->
  gen_ok g' /\ gn_allocs g' = gn_allocs g /\ (forall j, codes_of g' j = codes_of g j) /\ (forall j, uses_of g' j = uses_of g j + (if (id =? j)%N then 1 else 0)).
Proof.
  intros H [K1 K2 K3 K4]. apply gn_claim_codes in H as (c & Hc & <- & Hlt & E1 & E2 & Ht). destruct (K1 _ _ Hc) as (C1 & C2 & C3 & C4).
  split; [constructor|split; [exact E2|split]].
  - intros h0 c0 H0. rewrite E1 in H0. destruct (decide (h0 = h)) as [->|Hne]; [|rewrite lookup_insert_ne in H0 by congruence; exact (K1 _ _ H0)]. rewrite lookup_insert in H0. injection H0 as <-. cbn. split; [lia|]. auto.
  - rewrite E2. exact K2.
  - exact (take_batch_max _ _ _ _ _ Ht K3).
  - intros r. specialize (K4 r). unfold codes_owe, allocs_owe, held_by in *. rewrite E1, E2, (msum_insert_some _ _ _ _ _ Hc). pose proof (take_batch_le _ _ _ _ _ C3 Ht r). apply (vts_take_batch_amount _ r) in Ht. change vaults with (gmap resource Z) in *. rewrite Ht. unfold uses_left in *. cbn [rc_max rc_count rc_claims set]. change (rc_claims (c <| rc_count := (rc_count c + 1)%N |>)) with (rc_claims c). change (rc_max (c <| rc_count := (rc_count c + 1)%N |>)) with (rc_max c). change (rc_count (c <| rc_count := (rc_count c + 1)%N |>)) with (rc_count c + 1)%N. assert ((Z.of_N (rc_max c) - Z.of_N (rc_count c + 1)) * amount_in r (rc_claims c) = (Z.of_N (rc_max c) - Z.of_N (rc_count c)) * amount_in r (rc_claims c) - amount_in r (rc_claims c)) as -> by lia. lia.
  - intros j. unfold codes_of. rewrite E1, (msum_insert_some _ _ _ _ _ Hc). cbn. lia.
  - intros j. unfold uses_of. rewrite E1, (msum_insert_some _ _ _ _ _ Hc). cbn. destruct (rc_ref c =? j)%N; lia.
Qed.
