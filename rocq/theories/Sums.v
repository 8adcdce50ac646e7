(** * Sums over finite maps and lists. *)
From Verif Require Import Base.

(** The sum of [f k x] over the entries of a map. *)
Definition msum {A} (f : N -> A -> Z) (m : gmap N A) : Z :=
  foldr (fun kx acc => f (fst kx) (snd kx) + acc) 0 (map_to_list m).
(** The sum of [f x] over a list. *)
Definition lsum {A} (f : A -> Z) (l : list A) : Z := foldr (fun x acc => f x + acc) 0 l.

Lemma lsum_app {A} (f : A -> Z) l k : lsum f (l ++ k) = lsum f l + lsum f k.
Proof. induction l; simpl; lia. Qed.
Lemma lsum_perm {A} (f : A -> Z) l k : l ≡ₚ k -> lsum f l = lsum f k.
Proof. induction 1; simpl; lia. Qed.
Lemma lsum_cons {A} (f : A -> Z) x l : lsum f (x :: l) = f x + lsum f l.
Proof. reflexivity. Qed.
Lemma lsum_ext {A} (f g : A -> Z) l : (forall x, x ∈ l -> f x = g x) -> lsum f l = lsum g l.
Proof.
  induction l as [|x l IH]; simpl; intros H; [reflexivity|].
  rewrite (H x), IH; [reflexivity| |]; intros; try apply H; set_solver.
Qed.
Lemma lsum_nonneg {A} (f : A -> Z) l : (forall x, x ∈ l -> 0 <= f x) -> 0 <= lsum f l.
Proof.
  induction l as [|x l IH]; simpl; intros H; [lia|].
  pose proof (H x). assert (0 <= lsum f l) by (apply IH; intros; apply H; set_solver).
  assert (0 <= f x) by (apply H; set_solver). lia.
Qed.
Lemma lsum_le {A} (f g : A -> Z) l : (forall x, x ∈ l -> f x <= g x) -> lsum f l <= lsum g l.
Proof.
  induction l as [|x l IH]; simpl; intros H; [lia|].
  assert (f x <= g x) by (apply H; set_solver).
  assert (lsum f l <= lsum g l) by (apply IH; intros; apply H; set_solver). lia.
Qed.
Lemma lsum_map {A B} (f : B -> Z) (g : A -> B) l : lsum f (map g l) = lsum (fun x => f (g x)) l.
Proof. induction l; simpl; lia. Qed.
Lemma lsum_zero {A} (f : A -> Z) l : (forall x, x ∈ l -> f x = 0) -> lsum f l = 0.
Proof.
  induction l as [|x l IH]; simpl; intros H; [reflexivity|].
  rewrite (H x), IH; [reflexivity| |]; intros; try apply H; set_solver.
Qed.
Lemma lsum_add {A} (f g : A -> Z) l : lsum (fun x => f x + g x) l = lsum f l + lsum g l.
Proof. induction l; simpl; lia. Qed.
Lemma lsum_scale {A} (f : A -> Z) n l : lsum (fun x => n * f x) l = n * lsum f l.
Proof. induction l; simpl; lia. Qed.

Lemma msum_lsum {A} (f : N -> A -> Z) m : msum f m = lsum (fun kx => f (fst kx) (snd kx)) (map_to_list m).
Proof. reflexivity. Qed.
Lemma msum_empty {A} (f : N -> A -> Z) : msum f ∅ = 0.
Proof. unfold msum. rewrite map_to_list_empty. reflexivity. Qed.
Lemma msum_insert_new {A} (f : N -> A -> Z) m k x :
  m !! k = None -> msum f (<[k := x]> m) = f k x + msum f m.
Proof.
  intros H. rewrite !msum_lsum. rewrite (lsum_perm _ _ _ (map_to_list_insert m k x H)). reflexivity.
Qed.
Lemma msum_delete {A} (f : N -> A -> Z) m k x :
  m !! k = Some x -> msum f m = f k x + msum f (delete k m).
Proof.
  intros H. rewrite <- (insert_delete m k x H) at 1. apply msum_insert_new. apply lookup_delete.
Qed.
Lemma msum_insert {A} (f : N -> A -> Z) m k x :
  msum f (<[k := x]> m) = f k x + msum f m - (match m !! k with Some y => f k y | None => 0 end).
Proof.
  destruct (m !! k) as [y|] eqn:H.
  - rewrite <- insert_delete_insert, msum_insert_new by apply lookup_delete.
    rewrite (msum_delete f m k y H). lia.
  - rewrite msum_insert_new by exact H. lia.
Qed.
Lemma msum_ext {A} (f g : N -> A -> Z) m : (forall k x, m !! k = Some x -> f k x = g k x) -> msum f m = msum g m.
Proof.
  intros H. rewrite !msum_lsum. apply lsum_ext. intros [k x] Hi. apply elem_of_map_to_list in Hi. auto.
Qed.
Lemma msum_nonneg {A} (f : N -> A -> Z) m : (forall k x, m !! k = Some x -> 0 <= f k x) -> 0 <= msum f m.
Proof.
  intros H. rewrite msum_lsum. apply lsum_nonneg. intros [k x] Hi. apply elem_of_map_to_list in Hi. simpl; auto.
Qed.
Lemma msum_le {A} (f g : N -> A -> Z) m : (forall k x, m !! k = Some x -> f k x <= g k x) -> msum f m <= msum g m.
Proof.
  intros H. rewrite !msum_lsum. apply lsum_le. intros [k x] Hi. apply elem_of_map_to_list in Hi. simpl; auto.
Qed.
Lemma msum_zero {A} (f : N -> A -> Z) m : (forall k x, m !! k = Some x -> f k x = 0) -> msum f m = 0.
Proof.
  intros H. rewrite msum_lsum. apply lsum_zero. intros [k x] Hi. apply elem_of_map_to_list in Hi. simpl; auto.
Qed.
Lemma msum_fmap {A B} (f : N -> B -> Z) (g : A -> B) m : msum f (g <$> m) = msum (fun k x => f k (g x)) m.
Proof.
  induction m as [|k x m Hk IH] using map_ind.
  - rewrite fmap_empty, !msum_empty. reflexivity.
  - rewrite fmap_insert, !msum_insert_new; [rewrite IH; reflexivity|exact Hk|].
    rewrite lookup_fmap, Hk. reflexivity.
Qed.
(** A single entry is at most the sum of non-negative ones. *)
Lemma msum_ge_one {A} (f : N -> A -> Z) m k x :
  (forall k x, m !! k = Some x -> 0 <= f k x) -> m !! k = Some x -> f k x <= msum f m.
Proof.
  intros Hn Hk. rewrite (msum_delete f m k x Hk).
  assert (0 <= msum f (delete k m)); [|lia].
  apply msum_nonneg. intros j y Hj. apply lookup_delete_Some in Hj. destruct Hj. eauto.
Qed.
Lemma msum_insert_some {A} (f : N -> A -> Z) m k x y :
  m !! k = Some y -> msum f (<[k := x]> m) = f k x + msum f m - f k y.
Proof. intros H. rewrite msum_insert, H. reflexivity. Qed.
