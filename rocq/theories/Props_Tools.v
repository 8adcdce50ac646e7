(** * Faucet and environment registry (C56). *)
From Verif Require Import Base Types Lists Wrapper Tools.

(** ** Environment registry *)
(** What a history of calls says about a key: the last value an owner set for it and did not remove since, if any.
    The entries of one call count in order. *)
Definition said (k : N) (cur : option N) (o : er_op) : option N :=
  match o with
  | ESet vars => fold_left (fun cur kv => if (fst kv =? k)%N then Some (snd kv) else cur) vars cur
  | ERemove keys => if existsb (N.eqb k) keys then None else cur
  end.
Definition last_value (k : N) (l : list (bool * er_op)) : option N :=
  fold_left (fun (cur : option N) (x : bool * er_op) => if fst x then said k cur (snd x) else cur) l None.

Lemma er_set_lookup vars : forall g k, er_set g vars !! k = fold_left (fun cur kv => if (fst kv =? k)%N then Some (snd kv) else cur) vars (g !! k).
Proof.
  unfold er_set. induction vars as [|[j v] vars IH]; intros g k; [reflexivity|]. cbn [foldl fold_left fst snd]. rewrite IH. f_equal.
  destruct (N.eqb_spec j k) as [->|Hn]; [apply lookup_insert|apply lookup_insert_ne; exact Hn].
Qed.
Lemma er_remove_lookup keys : forall g k, er_remove g keys !! k = if existsb (N.eqb k) keys then None else g !! k.
Proof.
  change env_reg with (gmap N N) in *. unfold er_remove. change env_reg with (gmap N N) in *. induction keys as [|j keys IH]; intros g k; [reflexivity|]. cbn [foldl existsb]. rewrite IH. destruct (N.eqb_spec k j) as [->|Hn]; cbn [orb].
  - rewrite lookup_delete. destruct (existsb _ _); reflexivity.
  - rewrite lookup_delete_ne by congruence. reflexivity.
Qed.
Lemma er_run_lookup l : forall g k, er_run g l !! k = fold_left (fun (cur : option N) (x : bool * er_op) => if fst x then said k cur (snd x) else cur) l (g !! k).
Proof.
  induction l as [|[owner o] l IH]; intros g k; [reflexivity|]. cbn [er_run fold_left fst snd]. rewrite IH. f_equal. unfold er_step. destruct owner; cbn [guard_ mbind res_bind]; [|reflexivity].
  destruct o as [vars|keys]; [apply er_set_lookup|apply er_remove_lookup].
Qed.
Lemma er_get_lookup g keys k : er_get g keys !! k = if existsb (N.eqb k) keys then Some (default 0%N (g !! k)) else None.
Proof.
  unfold er_get. assert (forall m : gmap N N, foldl (fun (m : gmap N N) k => <[k := default 0%N (g !! k)]> m) m keys !! k = if existsb (N.eqb k) keys then Some (default 0%N (g !! k)) else m !! k) as H; [|rewrite H, lookup_empty; reflexivity].
  induction keys as [|j keys IH]; intros m; [reflexivity|]. cbn [foldl existsb]. rewrite IH. destruct (N.eqb_spec k j) as [->|Hn]; cbn [orb].
  - rewrite lookup_insert. destruct (existsb _ _); reflexivity.
  - rewrite lookup_insert_ne by congruence. reflexivity.
Qed.
(** After any history of calls, by the owner or by others, get_variables answers exactly for the requested keys, with the
    last value set and not removed since, or the empty string. *)
Theorem C56_get_variables (l : list (bool * er_op)) (keys : list N) :
  (forall k, k ∈ keys -> er_get (er_run er_new l) keys !! k = Some (default 0%N (last_value k l))) /\
  (forall k, k ∉ keys -> er_get (er_run er_new l) keys !! k = None).
Proof.
  assert (forall k, existsb (N.eqb k) keys = true <-> k ∈ keys) as He.
  { intros k. rewrite existsb_exists. split; [intros (x & Hx & Hk); apply N.eqb_eq in Hk; subst; apply elem_of_list_In; exact Hx|intros Hk; exists k; split; [apply elem_of_list_In; exact Hk|apply N.eqb_refl]]. }
  split; intros k Hk; rewrite er_get_lookup.
  - rewrite (proj2 (He k) Hk), er_run_lookup. reflexivity.
  - destruct (existsb (N.eqb k) keys) eqn:H; [|reflexivity]. exfalso. apply Hk, He, H.
Qed.
(** Calls by anyone but the owner fail and change nothing. *)
Theorem C56_only_owner_sets g o : er_step false g o = Err EAuth.
Proof. reflexivity. Qed.
Example C56_registry_ex : let l := [(true, ESet [(1, 10); (2, 20); (1, 11)]%N); (false, ESet [(1, 99)]%N); (true, ERemove [2%N]); (true, ESet [(3, 30)]%N)] in
  last_value 1%N l = Some 11%N /\ last_value 2%N l = None /\ last_value 3%N l = Some 30%N /\
  er_get (er_run er_new l) [1; 2; 3; 4]%N !! 1%N = Some 11%N /\ er_get (er_run er_new l) [1; 2; 3; 4]%N !! 2%N = Some 0%N.
Proof. vm_compute. repeat split. Qed.

(** ** Faucet *)
(** The amount an owner last configured for a resource. *)
Definition configured (r : resource) (l : list (bool * bool * fc_op)) (start : option Z) : option Z :=
  fold_left (fun (cur : option Z) (x : bool * bool * fc_op) => match x with (true, _, FUpdate r' amt) => if (r' =? r)%N then Some amt else cur | _ => cur end) l start.
Lemma fc_free_spec E mintable l : forall acc out, rfold (fc_free1 E mintable) acc l = Ok out -> out = acc ++ List.filter (fun x => 0 <? snd x) l.
Proof.
  induction l as [|x l IH]; intros acc out H; cbn [rfold] in H; [apply Ok_inj in H; subst; rewrite app_nil_r; reflexivity|].
  destruct (fc_free1 E mintable acc x) as [acc1|] eqn:H1; cbn [mbind res_bind] in H; [|discriminate H]. apply IH in H. subst out. cbn [List.filter]. unfold fc_free1 in H1. destruct (0 <? snd x).
  - destruct (mintable (fst x) && mint_ok E (fst x) (snd x)); cbn [guard_ mbind res_bind] in H1; [|discriminate H1]. apply Ok_inj in H1. subst acc1. rewrite <- app_assoc. reflexivity.
  - apply Ok_inj in H1. subst acc1. reflexivity.
Qed.
(** free_tokens pays exactly one bucket of the configured amount for each resource with a positive amount, nothing else,
    and leaves the configuration alone. *)
Theorem C56_free_tokens E mintable owner user f f' bs : fc_step E mintable owner user f FFree = Ok (f', bs) ->
  f' = f /\ NoDup (map b_res bs) /\ forall r amt, (r, amt) ∈ bs <-> f !! r = Some amt /\ 0 < amt.
Proof.
  cbn [fc_step]. intros H. destruct user; cbn [guard_ mbind res_bind] in H; [|discriminate H]. unfold fc_free_tokens in H. destruct (rfold _ _ _) as [out|] eqn:Hf; cbn [mbind res_bind] in H; [|discriminate H]. apply Ok_inj in H. injection H as <- <-.
  apply fc_free_spec in Hf. cbn [app] in Hf. subst out. split; [reflexivity|]. split.
  - change faucet with (gmap N Z) in *. change resource with N in *. change b_res with (@fst N Z). pose proof (NoDup_fst_map_to_list f) as Hn. revert Hn. generalize (map_to_list f). clear. induction l as [|x l IH]; intros Hn; [constructor|]. cbn in Hn. apply NoDup_cons in Hn as [H1 H2].
    cbn [List.filter]. destruct (0 <? snd x); [|apply IH; exact H2]. cbn. apply NoDup_cons. split; [|apply IH; exact H2]. intros Hin. apply H1. apply elem_of_list_fmap in Hin as (y & Hy & Hin). apply elem_of_list_fmap. exists y. split; [exact Hy|]. apply elem_of_list_In in Hin. apply filter_In in Hin as [Hin _]. apply elem_of_list_In. exact Hin.
  - intros r amt. rewrite elem_of_list_In, filter_In, <- elem_of_list_In. cbn [snd]. rewrite Z.ltb_lt. pose proof (elem_of_map_to_list (f : gmap N Z) r amt) as Hm. split; (intros [H1 H2]; split; [apply Hm; exact H1|exact H2]).
Qed.
(** It works whenever the faucet may mint the configured amounts. *)
Theorem C56_free_tokens_available E mintable owner f : (forall r amt, f !! r = Some amt -> 0 < amt -> mintable r = true /\ mint_ok E r amt = true) ->
  exists bs, fc_step E mintable owner true f FFree = Ok (f, bs).
Proof.
  intros H. cbn [fc_step guard_ mbind res_bind]. unfold fc_free_tokens. assert (forall l acc, (forall r amt, (r, amt) ∈ l -> 0 < amt -> mintable r = true /\ mint_ok E r amt = true) -> exists out, rfold (fc_free1 E mintable) acc l = Ok out) as G.
  { clear. induction l as [|[r amt] l IH]; intros acc H; [exists acc; reflexivity|]. cbn [rfold].
    assert (exists acc1, fc_free1 E mintable acc (r, amt) = Ok acc1) as [acc1 ->].
    { unfold fc_free1. cbn [fst snd]. destruct (Z.ltb_spec 0 amt) as [Hp|Hp]; [|eauto]. destruct (H r amt) as [-> ->]; [left|exact Hp|]. cbn [andb guard_ mbind res_bind]. eauto. }
    cbn [mbind res_bind]. apply IH. intros r' amt' Hin. apply H. right. exact Hin. }
  destruct (G (map_to_list f) []) as [out ->]; [intros r amt Hin; apply elem_of_map_to_list in Hin; exact (H r amt Hin)|]. cbn [mbind res_bind]. eauto.
Qed.
(** The configured amount is the one the owner set last; nobody else changes it. *)
Theorem C56_mint_amounts E mintable l : forall f r, fc_run E mintable f l !! r = configured r l (f !! r).
Proof.
  unfold configured. induction l as [|[[owner user] o] l IH]; intros f r; [reflexivity|]. cbn [fc_run fold_left]. rewrite IH. f_equal.
  destruct o as [r' amt|r' amt|]; cbn [fc_step].
  - destruct owner; cbn [guard_ mbind res_bind]; [|reflexivity]. unfold fc_update. destruct (N.eqb_spec r' r) as [->|Hn]; [apply lookup_insert|apply lookup_insert_ne; exact Hn].
  - destruct owner; cbn [guard_ mbind res_bind]; [|reflexivity]. destruct (fc_admin_mint _ _ _ _); reflexivity.
  - destruct user; cbn [guard_ mbind res_bind]; [|destruct owner; reflexivity]. destruct (fc_free_tokens E mintable f); cbn [mbind res_bind]; destruct owner; reflexivity.
Qed.
(** The owner mints exactly what was asked; others nothing. *)
Theorem C56_admin_mint E mintable owner user f r amt f' bs : fc_step E mintable owner user f (FAdminMint r amt) = Ok (f', bs) -> owner = true /\ f' = f /\ bs = [(r, amt)].
Proof.
  cbn [fc_step]. destruct owner; cbn [guard_ mbind res_bind]; [|discriminate]. unfold fc_admin_mint. destruct (mintable r && mint_ok E r amt); cbn [guard_ mbind res_bind]; [|discriminate]. intros H. apply Ok_inj in H. injection H as <- <-. repeat split.
Qed.
Example C56_faucet_ex : let f := fc_run (mkEnv (fun _ => None) (fun _ _ _ => true) (fun x => x) (fun _ => 18%N)) (fun _ => true) (fc_new 1 2 3 4)%N [(true, true, FUpdate 3%N 5); (false, true, FUpdate 1%N 7)] in
  f !! 3%N = Some 5 /\ f !! 1%N = Some 1000000000000000 /\ f !! 4%N = Some 0.
Proof. vm_compute. repeat split. Qed.
