(** * Stored lists stand for ordinary lists (for C45, C52). *)
From Verif Require Import Base Lists Trace SpecLists.

Lemma stands_new {T} : stands_for (@kl_new T) [].
Proof. split; [reflexivity|]. intros i. unfold kl_get. cbn. rewrite lookup_empty. destruct (N.to_nat i); reflexivity. Qed.
Lemma stands_push {T} (l : klist T) xs x l' : stands_for l xs -> kl_push l x = Ok l' -> stands_for l' (xs ++ [x]).
Proof.
  intros [A B] H. unfold kl_push in H. bd H as (p & Hp & H). apply Ok_inj in H. subst l'. apply uadd_Ok in Hp as [-> _]. unfold kl_len in *. split; [cbn; rewrite app_length; cbn; lia|]. intros i. unfold kl_get in *. cbn. rewrite A. destruct (decide (i = N.of_nat (length xs))) as [->|Hne].
  - rewrite lookup_insert, Nat2N.id, lookup_app_r, Nat.sub_diag by lia. reflexivity.
  - rewrite lookup_insert_ne by congruence. rewrite B. destruct (decide (N.to_nat i < length xs)%nat) as [Hl|Hl]; [rewrite lookup_app_l by exact Hl; reflexivity|]. rewrite lookup_app_r by lia. rewrite lookup_ge_None_2 by lia. symmetry. apply lookup_ge_None_2. cbn. lia.
Qed.
Lemma stands_update {T} (l : klist T) xs i x l' : stands_for l xs -> kl_update l i x = Ok l' -> (N.to_nat i < length xs)%nat /\ stands_for l' (<[N.to_nat i := x]> xs).
Proof.
  intros [A B] H. unfold kl_update in H. bd H as (u & Hg & H). apply Ok_inj in H. subst l'. apply guard_Ok, N.ltb_lt in Hg. unfold kl_len in *. split; [lia|]. split; [cbn; rewrite insert_length; exact A|]. intros j. unfold kl_get in *. cbn. destruct (decide (j = i)) as [->|Hne].
  - rewrite lookup_insert, list_lookup_insert by lia. reflexivity.
  - rewrite lookup_insert_ne by congruence. rewrite list_lookup_insert_ne by lia. apply B.
Qed.
Lemma stands_unique {T} (l : klist T) xs ys : stands_for l xs -> stands_for l ys -> xs = ys.
Proof. intros [A B] [C D]. apply list_eq. intros i. specialize (B (N.of_nat i)). specialize (D (N.of_nat i)). rewrite Nat2N.id in *. congruence. Qed.
Lemma stands_ex {T} (l : klist T) : (forall i, is_Some (kl_kvs l !! i) <-> (i < kl_ptr l)%N) -> exists xs, stands_for l xs.
Proof.
  intros Hw. assert (forall n, (N.of_nat n <= kl_ptr l)%N -> exists xs, length xs = n /\ forall i, (i < n)%nat -> kl_kvs l !! N.of_nat i = xs !! i) as Hn.
  { induction n as [|n IH]; intros Hle; [exists []; split; [reflexivity|lia]|]. destruct IH as (xs & Hl & Hx); [lia|]. destruct (proj2 (Hw (N.of_nat n)) ltac:(lia)) as [x Hx0]. exists (xs ++ [x]). split; [rewrite app_length; cbn; lia|]. intros i Hi. destruct (decide (i = n)) as [->|Hne]; [rewrite Hx0, lookup_app_r, Hl, Nat.sub_diag by lia; reflexivity|]. rewrite lookup_app_l by lia. apply Hx. lia. }
  destruct (Hn (N.to_nat (kl_ptr l)) ltac:(lia)) as (xs & Hl & Hx). exists xs. split; [unfold kl_len; lia|]. intros i. unfold kl_get. destruct (decide (N.to_nat i < N.to_nat (kl_ptr l))%nat) as [Hi|Hi].
  - rewrite <- Hx by exact Hi. rewrite N2Nat.id. reflexivity.
  - rewrite (lookup_ge_None_2 xs) by lia. destruct (kl_kvs l !! i) as [y|] eqn:Ey; [|reflexivity]. assert (i < kl_ptr l)%N by (apply Hw; eauto). lia.
Qed.
Lemma range_page {T} (l : klist T) xs s e : stands_for l xs -> kl_range l s e = page xs s e.
Proof.
  intros [A B]. unfold kl_range, page. generalize (N.to_nat (e - s)). intros n. revert s. induction n as [|n IH]; intros s; [destruct (drop _ _); reflexivity|]. cbn [kl_range_from]. rewrite B. destruct (xs !! N.to_nat s) as [x|] eqn:Ex.
  - rewrite (drop_S _ _ _ Ex). cbn [take]. rewrite IH. replace (N.to_nat (s + 1)) with (S (N.to_nat s)) by lia. reflexivity.
  - apply lookup_ge_None in Ex. rewrite drop_ge by exact Ex. reflexivity.
Qed.
Lemma page_lookup {T} (xs : list T) s e i : page xs s e !! i = if decide (i < N.to_nat (e - s))%nat then xs !! (N.to_nat s + i)%nat else None.
Proof. unfold page. destruct (decide _) as [H|H]; [rewrite lookup_take by exact H; apply lookup_drop|apply lookup_take_ge; lia]. Qed.
Lemma numbered_lookup {T} (xs : list T) i : numbered xs !! i = (fun x => (N.of_nat i, x)) <$> xs !! i.
Proof. unfold numbered. rewrite list_lookup_imap. reflexivity. Qed.
Lemma page_min {T} (xs : list T) s e : page xs s (N.min e (N.of_nat (length xs))) = page xs s e.
Proof.
  apply list_eq. intros i. rewrite !page_lookup. destruct (decide (i < N.to_nat (e - s))%nat) as [H|H]; destruct (decide (i < N.to_nat (N.min e (N.of_nat (length xs)) - s))%nat) as [H1|H1]; try reflexivity; try lia. symmetry. apply lookup_ge_None_2. lia.
Qed.
Lemma zip_page {T} (xs : list T) s e : zip (map (fun i => (s + N.of_nat i)%N) (seq 0 (N.to_nat (e - s)))) (page xs s e) = page (numbered xs) s e.
Proof.
  apply list_eq. intros i. rewrite lookup_zip_with, !page_lookup, numbered_lookup. rewrite list_lookup_fmap. destruct (decide (i < N.to_nat (e - s))%nat) as [H|H].
  - rewrite lookup_seq_lt by exact H. cbn. destruct (xs !! (N.to_nat s + i)%nat); cbn; [|reflexivity]. do 2 f_equal. lia.
  - rewrite lookup_seq_ge by lia. reflexivity.
Qed.
Lemma zip_rev {A B} (l : list A) (k : list B) : length l = length k -> zip (rev l) (rev k) = rev (zip l k).
Proof.
  revert k. induction l as [|a l IH]; intros [|b k] H; try discriminate; [reflexivity|]. cbn. rewrite zip_with_app by (rewrite !rev_length; cbn in H; lia). rewrite IH by (cbn in H; lia). reflexivity.
Qed.
(** Hash lists. *)
Lemma hstands_new {V} : hstands_for (@hl_new V) [].
Proof. split; [exact stands_new|]. split; [constructor|]. intros k v. unfold hl_get. cbn. rewrite lookup_empty. split; [discriminate|intros H; inversion H]. Qed.
Lemma put_keys {V} (kvs : list (N * V)) k v : map fst (put kvs k v) = if decide (k ∈ map fst kvs) then map fst kvs else map fst kvs ++ [k].
Proof.
  induction kvs as [|[j x] kvs IH]; cbn [put map fst]; [destruct (decide _) as [H|H]; [inversion H|reflexivity]|]. destruct (N.eqb_spec j k) as [->|Hn].
  - cbn [map fst]. rewrite decide_True by left. reflexivity.
  - cbn [map fst]. rewrite IH. destruct (decide (k ∈ map fst kvs)) as [H|H]; [rewrite decide_True by (right; exact H); reflexivity|]. rewrite decide_False; [reflexivity|]. intros Hx. apply elem_of_cons in Hx as [Hx|Hx]; [congruence|exact (H Hx)].
Qed.
Lemma put_elem {V} (kvs : list (N * V)) k v j u : NoDup (map fst kvs) -> (j, u) ∈ put kvs k v <-> (j = k /\ u = v) \/ (j <> k /\ (j, u) ∈ kvs).
Proof.
  induction kvs as [|[i x] kvs IH]; cbn [put map fst]; intros Hnd.
  - rewrite elem_of_list_singleton. split; [intros [=-> ->]; left; split; reflexivity|]. intros [[-> ->]|[_ H]]; [reflexivity|inversion H].
  - apply NoDup_cons in Hnd as [Hni Hnd]. destruct (N.eqb_spec i k) as [->|Hn].
    + rewrite !elem_of_cons. split.
      * intros [[=-> ->]|H]; [left; split; reflexivity|]. right. split; [|right; exact H]. intros ->. apply Hni. apply (elem_of_list_fmap_1 fst) in H. exact H.
      * intros [[-> ->]|[Hj [[=-> ->]|H]]]; [left; reflexivity|congruence|right; exact H].
    + rewrite !elem_of_cons, IH by exact Hnd. split.
      * intros [[=-> ->]|[H|[Hj H]]]; [right; split; [exact Hn|left; reflexivity]|left; exact H|right; split; [exact Hj|right; exact H]].
      * intros [H|[Hj [[=-> ->]|H]]]; [right; left; exact H|left; reflexivity|right; right; split; [exact Hj|exact H]].
Qed.
Lemma hstands_insert {V} (h : hlist V) kvs k v h' : hstands_for h kvs -> hl_insert h k v = Ok h' -> hstands_for h' (put kvs k v).
Proof.
  intros (A & B & C) H. unfold hl_insert in H. unfold hl_get in *. assert (k ∈ map fst kvs <-> is_Some (hl_kvs h !! k)) as Hk.
  { split; [intros Hi; apply elem_of_list_fmap in Hi as ([k0 x] & -> & Hi); cbn; exists x; apply C; exact Hi|]. intros [x Hx]. apply C in Hx. apply (elem_of_list_fmap_1 fst) in Hx. exact Hx. }
  assert (forall l, hstands_for (mkHlist l (<[k := v]> (hl_kvs h))) (put kvs k v) <-> stands_for l (map fst (put kvs k v))) as Hh.
  { intros l. split; [intros (X & _); exact X|]. intros X. split; [exact X|]. split.
    - rewrite put_keys. destruct (decide (k ∈ map fst kvs)) as [Hi|Hi]; [exact B|]. apply NoDup_app. split; [exact B|]. split; [intros y Hy Hy2; apply elem_of_list_singleton in Hy2; subst; exact (Hi Hy)|]. apply NoDup_singleton.
    - intros j u. unfold hl_get. cbn. rewrite put_elem by exact B. destruct (decide (j = k)) as [->|Hne].
      + rewrite lookup_insert. split; [intros [=->]; left; split; reflexivity|]. intros [[_ ->]|[Hx _]]; [reflexivity|congruence].
      + rewrite lookup_insert_ne by congruence. rewrite C. split; [intros Hx; right; split; assumption|]. intros [[Hx _]|[_ Hx]]; [congruence|exact Hx]. }
  destruct (hl_kvs h !! k) as [old|] eqn:Eo.
  - apply Ok_inj in H. subst h'. apply Hh. rewrite put_keys, decide_True by (apply Hk; eauto). exact A.
  - bd H as (l & Hl & H). apply Ok_inj in H. subst h'. apply Hh. rewrite put_keys, decide_False by (rewrite Hk; intros [x Hx]; discriminate). exact (stands_push _ _ _ _ A Hl).
Qed.
Lemma hrange_page {V} (h : hlist V) kvs s e : hstands_for h kvs -> hl_range h s e = Ok (page (map snd kvs) s e).
Proof.
  intros ([A B] & Hnd & C). unfold hl_range, page. generalize (N.to_nat (e - s)). intros n. revert s. induction n as [|n IH]; intros s; [destruct (drop _ _); reflexivity|]. cbn [hl_range_from]. rewrite B. rewrite list_lookup_fmap. destruct (kvs !! N.to_nat s) as [[k v]|] eqn:Ex; cbn [fmap option_fmap option_map fst].
  - assert (hl_get h k = Some v) as -> by (apply C; eapply elem_of_list_lookup_2; exact Ex). cbn [expect mbind res_bind]. rewrite IH. cbn [mbind res_bind]. assert (map snd kvs !! N.to_nat s = Some v) as Hv by (rewrite list_lookup_fmap, Ex; reflexivity). rewrite (drop_S _ _ _ Hv). cbn [take]. replace (N.to_nat (s + 1)) with (S (N.to_nat s)) by lia. reflexivity.
  - apply lookup_ge_None in Ex. rewrite drop_ge by (rewrite map_length; exact Ex). reflexivity.
Qed.
Lemma hlen {V} (h : hlist V) kvs : hstands_for h kvs -> hl_len h = N.of_nat (length kvs).
Proof. intros ([A _] & _). unfold hl_len. rewrite A, map_length. reflexivity. Qed.
