(** * Recorded collateral and vault contents move together (for C03, C16, C25). *)
From Verif Require Import Base DFloat Lists Types Config Oracle Pool Account Fees Referral ExInternal Exchange System Sums Trace Frames Calls Shape Spec P_Ledger P_Accounts Frames2 P_Refs P_Tokens P_Final P_Keeper.

Definition held_coll (acc : account) (r : resource) : Z := default 0 (ac_coll acc !! r).
Definition in_vault (acc : account) (r : resource) : Z := default 0 (ac_vaults acc !! r).
Definition coll_ok (acc : account) : Prop := forall r, held_coll acc r = in_vault acc r /\ 0 <= in_vault acc r.
Definition bs_nonneg (bs : list bucket) : Prop := Forall (fun b => 0 <= b_amt b) bs.
Definition table_ok (c : gmap resource Z) (v : vaults) : Prop := forall r, default 0 (c !! r) = default 0 (v !! r) /\ 0 <= default 0 (v !! r).

Lemma put_table c v b c' v' : coll_add c b = Ok c' -> vts_put v b = Ok v' -> 0 <= b_amt b -> table_ok c v -> table_ok c' v'.
Proof.
  intros Hc Hv Hb H r. destruct (H (b_res b)) as [H1 H2]. unfold vts_put, vts_amount in Hv. bd Hv as (x & Hx & Hv). apply Ok_inj in Hv. subst v'. apply dadd_Ok in Hx as [-> _].
  unfold coll_add in Hc. assert (c' = <[b_res b := default 0 (c !! b_res b) + b_amt b]> c) as ->.
  { destruct (c !! b_res b) as [y|]; cbn [default] in *; [bd Hc as (z & Hz & Hc); apply dadd_Ok in Hz as [-> _]|]; apply Ok_inj in Hc; rewrite <- Hc; [reflexivity|f_equal; lia]. }
  change vaults with (gmap resource Z) in *. destruct (decide (r = b_res b)) as [->|Hne]; [rewrite !lookup_insert|rewrite !lookup_insert_ne by congruence; apply H]. cbn. cbn in H1, H2. rewrite H1. split; [reflexivity|]. apply Z.add_nonneg_nonneg; assumption.
Qed.
Lemma put_batch_table bs : forall c v c' v', rfold coll_add c bs = Ok c' -> vts_put_batch v bs = Ok v' -> bs_nonneg bs -> table_ok c v -> table_ok c' v'.
Proof.
  unfold vts_put_batch. induction bs as [|b bs IH]; intros c v c' v' Hc Hv Hn H; cbn [rfold] in Hc, Hv; [apply Ok_inj in Hc, Hv; subst; exact H|].
  bd Hc as (c1 & Hc1 & Hc). bd Hv as (v1 & Hv1 & Hv). inversion Hn; subst. eapply IH; [exact Hc|exact Hv|assumption|]. eapply put_table; eauto.
Qed.
Lemma take_table E v r amt s v' b c c' : vts_take_adv E v r amt s = Ok (v', b) -> coll_sub c b = Ok c' -> table_ok c v -> table_ok c' v' /\ 0 <= b_amt b <= default 0 (c !! b_res b) /\ b_res b = r.
Proof.
  intros Hv Hc H. unfold vts_take_adv in Hv. bd Hv as (a & Ha & Hv). apply Ok_inj in Hv. injection Hv as <- <-. apply take_adv_inv in Ha as [_ Ha]. unfold coll_sub in Hc. cbn [b_res b_amt fst snd] in *.
  bd Hc as (x & Hx & Hc). bd Hc as (y & Hy & Hc). apply Ok_inj in Hc. apply expect_Ok in Hx. apply dsub_Ok in Hy as [-> _]. unfold vts_amount in *. pose proof (H r) as [H1 H2]. rewrite Hx in H1 |- *. cbn in H1 |- *.
  split; [|lia]. intros q. change vaults with (gmap resource Z) in *. destruct (decide (q = r)) as [->|Hne].
  - rewrite lookup_insert. cbn. destruct (Z.eqb_spec (x - a) 0) as [E0|E0]; subst c'; [rewrite lookup_delete|rewrite lookup_insert]; cbn; cbn in H1; rewrite <- H1; lia.
  - rewrite lookup_insert_ne by congruence. destruct (x - a =? 0); subst c'; [rewrite lookup_delete_ne by congruence|rewrite lookup_insert_ne by congruence]; apply H.
Qed.
Lemma take_batch_table E s cs : forall v v' bs c c', vts_take_adv_batch E v cs s = Ok (v', bs) -> rfold coll_sub c bs = Ok c' -> table_ok c v -> table_ok c' v' /\ bs_nonneg bs.
Proof.
  induction cs as [|[r amt] cs IH]; intros v v' bs c c' Hv Hc H; cbn [vts_take_adv_batch] in Hv; [apply Ok_inj in Hv; injection Hv as <- <-; cbn in Hc; apply Ok_inj in Hc; subst; split; [exact H|constructor]|].
  bd Hv as ([v1 b] & H1 & Hv). bd Hv as ([v2 bs2] & H2 & Hv). apply Ok_inj in Hv. injection Hv as <- <-. cbn [rfold] in Hc. bd Hc as (c1 & Hc1 & Hc).
  destruct (take_table _ _ _ _ _ _ _ _ _ H1 Hc1 H) as (T & Hb & _). destruct (IH _ _ _ _ _ H2 Hc T) as [T2 Hn]. split; [exact T2|]. constructor; [lia|exact Hn].
Qed.
Definition pays_in (x : sact) : Prop := match x with ADeposit bs => bs_nonneg bs | _ => True end.
Lemma sstep_coll_ok E now c o s x s' : sstep E now c o s x s' -> pays_in x -> coll_ok (va_comp (s_acc s)) -> coll_ok (va_comp (s_acc s')).
Proof.
  intros H Hp Hc. pose proof (sstep_frames _ _ _ _ _ _ _ H) as (_ & _ & Hf & _). destruct (touches_coll x) eqn:Ht.
  - destruct x; try discriminate Ht; inversion H; subst; cbn [s_acc] in *; clear Hf.
    + match goal with H : va_deposit _ _ = Ok _ |- _ => rename H into Hd end. unfold va_deposit, acc_deposit in Hd. bd Hd as (c1 & H1 & Hd). bd Hd as (a1 & H2 & Hd). bd H2 as (c2 & H2a & H2). bd H2 as (v2 & H2b & H2).
      apply Ok_inj in Hd, H2. subst. cbn. exact (put_batch_table _ _ _ _ _ H2a H2b Hp Hc).
    + match goal with H : va_withdraw _ _ _ _ = Ok _ |- _ => rename H into Hd end. unfold va_withdraw, acc_withdraw in Hd. bd Hd as ([a1 b1] & H2 & Hd). bd Hd as (c1 & H1 & Hd). bd H2 as ([v2 b2] & H2a & H2). bd H2 as (c2 & H2b & H2).
      apply Ok_inj in Hd, H2. injection Hd as <- <-. injection H2 as <- <-. cbn. exact (proj1 (take_batch_table _ _ _ _ _ _ _ _ H2a H2b Hc)).
  - specialize (Hf eq_refl). unfold g_coll in Hf. injection Hf as _ E2 E3. unfold coll_ok, held_coll, in_vault in *. rewrite E2, E3. exact Hc.
Qed.
Lemma ssteps_coll_ok E now c o s l s' : ssteps E now c o s l s' -> Forall pays_in l -> coll_ok (va_comp (s_acc s)) -> coll_ok (va_comp (s_acc s')).
Proof. induction 1 as [|s x s1 l s2 H1 H2 IH]; intros Hf Hc; [exact Hc|]. inversion Hf; subst. apply IH; [assumption|]. eapply sstep_coll_ok; eauto. Qed.
Lemma acc_update_coll a u a' : acc_update a u = Ok a' -> ac_coll a' = ac_coll a /\ ac_vaults a' = ac_vaults a.
Proof. unfold acc_update. intros Hu. bd Hu as (r1 & _ & Hu). bd Hu as (r2 & _ & Hu). apply Ok_inj in Hu. subst a'. split; reflexivity. Qed.

Lemma pays_oath oath : Forall pays_in (oath_acts oath). Proof. destruct oath; repeat constructor. Qed.
Lemma pays_add ts : bs_nonneg ts -> Forall pays_in (add_acts ts).
Proof.
  intros Hn. unfold add_acts. apply Forall_app. split; [induction (List.filter is_base ts); constructor; simpl; auto|]. constructor; [|constructor]. simpl. unfold bs_nonneg in *.
  rewrite Forall_forall in *. intros b Hb. apply elem_of_list_In, filter_In in Hb as [Hb _]. apply Hn, elem_of_list_In, Hb.
Qed.
Ltac pin := apply Forall_app; split; [apply pays_oath|repeat constructor].
Lemma op_acts_pays_in w o out l : op_acts w o out l -> bs_nonneg (op_buckets o) -> Forall pays_in l.
Proof.
  intros H Hb. destruct o; simpl in H; try contradiction.
  - destruct H as (acc & _ & _ & ->). pin.
  - destruct H as (acc & _ & _ & _ & ->). pin.
  - destruct H as (_ & ->). pin.
  - destruct H as (_ & ->). pin.
  - destruct H as (_ & ->). pin.
  - destruct H as (_ & ->). apply Forall_app. split; [|apply pays_oath]. apply pays_add. simpl in Hb. apply Forall_app in Hb as [_ Hb]. exact Hb.
  - destruct H as (_ & ->). pin.
  - destruct H as (_ & act & can & ->). pin.
  - destruct H as (_ & l' & -> & Hl). apply Forall_app. split; [apply pays_oath|]. eapply Forall_impl; [exact Hl|]. intros [] Hx; simpl in *; try contradiction; exact I.
  - destruct H as (_ & ->). pin.
  - destruct H as (v0 & v1 & rq & ex & l' & Hv & Hp & Hx & -> & _). constructor; [exact I|]. unfold exec_acts in Hx. destruct ex; [destruct Hx as [-> _]; constructor|]. destruct rq as [r|r].
    + destruct Hx as (k & bs & -> & _). apply Forall_app. split; [|repeat constructor]. induction k; constructor; simpl; auto.
    + destruct Hx as (l0 & fee & -> & Hl & _). constructor; [exact I|]. constructor; [exact I|]. apply Forall_app. split; [|repeat constructor].
      eapply Forall_impl; [exact Hl|]. intros [] Hy; simpl in *; try contradiction; exact I.
  - destruct H as (_ & paid & value & token & -> & _). repeat constructor.
  - destruct H as (_ & paid & bs & st & lo & fee & -> & Hlo & _). simpl. destruct Hlo as [->|[x ->]]; repeat constructor.
  - destruct H as (amt & fee & -> & _). repeat constructor.
Qed.
