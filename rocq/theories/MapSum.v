(** Sums over finite maps, and maps read as total functions with default 0. *)
From Verif Require Import Base.

Definition msum {K} `{Countable K} (m : gmap K Z) : Z := map_fold (fun _ v acc => v + acc) 0 m.
(** Value at a key, 0 if absent. *)
Definition mget {K} `{Countable K} (m : gmap K Z) (k : K) : Z := default 0 (m !! k).
(** Add [d] at key [k]. *)
Definition addz {K} `{Countable K} (k : K) (d : Z) (m : gmap K Z) : gmap K Z :=
  <[k := mget m k + d]> m.
(** Sum of a function over the entries of a map. *)
Definition fsum {K A} `{Countable K} (f : K -> A -> Z) (m : gmap K A) : Z :=
  map_fold (fun k v acc => f k v + acc) 0 m.

Section sums.
Context {K : Type} `{Countable K}.

Lemma fsum_empty {A} (f : K -> A -> Z) : fsum f ∅ = 0.
Proof. apply map_fold_empty. Qed.
Lemma fsum_insert_fresh {A} (f : K -> A -> Z) m k v :
  m !! k = None -> fsum f (<[k := v]> m) = f k v + fsum f m.
Proof. intros. unfold fsum. apply (map_fold_insert_L (fun k v acc => f k v + acc)); auto. intros; lia. Qed.
Lemma fsum_delete {A} (f : K -> A -> Z) m k v :
  m !! k = Some v -> fsum f m = f k v + fsum f (delete k m).
Proof. intros Hk. rewrite <- (insert_delete m k v Hk) at 1. apply fsum_insert_fresh. apply lookup_delete. Qed.
Lemma fsum_insert {A} (f : K -> A -> Z) m k v :
  fsum f (<[k := v]> m) = f k v + fsum f (delete k m).
Proof.
  rewrite <- insert_delete_insert. rewrite fsum_insert_fresh; auto. apply lookup_delete.
Qed.
Lemma fsum_insert_old {A} (f : K -> A -> Z) m k v w :
  m !! k = Some w -> fsum f (<[k := v]> m) = fsum f m - f k w + f k v.
Proof. intros. rewrite fsum_insert. rewrite (fsum_delete f m k w); auto. lia. Qed.
Lemma fsum_delete_none {A} (f : K -> A -> Z) m k :
  m !! k = None -> fsum f (delete k m) = fsum f m.
Proof. intros. by rewrite delete_notin. Qed.
Lemma fsum_ext {A} (f g : K -> A -> Z) m :
  (forall k v, m !! k = Some v -> f k v = g k v) -> fsum f m = fsum g m.
Proof.
  induction m as [|k v m Hk IH] using map_ind; intros E.
  - by rewrite !fsum_empty.
  - rewrite !fsum_insert_fresh by auto. rewrite IH.
    + rewrite E; auto. by rewrite lookup_insert.
    + intros j w Hj. apply E. rewrite lookup_insert_ne; auto. intros ->. congruence.
Qed.
Lemma fsum_le {A} (f g : K -> A -> Z) m :
  (forall k v, m !! k = Some v -> f k v <= g k v) -> fsum f m <= fsum g m.
Proof.
  induction m as [|k v m Hk IH] using map_ind; intros E.
  - by rewrite !fsum_empty.
  - rewrite !fsum_insert_fresh by auto.
    assert (f k v <= g k v). { apply E. by rewrite lookup_insert. }
    assert (fsum f m <= fsum g m); [|lia].
    apply IH. intros j w Hj. apply E. rewrite lookup_insert_ne; auto. intros ->. congruence.
Qed.
Lemma fsum_nonneg {A} (f : K -> A -> Z) m :
  (forall k v, m !! k = Some v -> 0 <= f k v) -> 0 <= fsum f m.
Proof.
  intros. transitivity (fsum (fun _ _ => 0) m).
  - clear. induction m as [|k v m Hk IH] using map_ind.
    + by rewrite fsum_empty.
    + rewrite fsum_insert_fresh; auto.
  - apply fsum_le. auto.
Qed.
Lemma fsum_elem_le {A} (f : K -> A -> Z) m k v :
  (forall k v, m !! k = Some v -> 0 <= f k v) -> m !! k = Some v -> f k v <= fsum f m.
Proof.
  intros Hn Hk. rewrite (fsum_delete f m k v Hk).
  assert (0 <= fsum f (delete k m)); [|lia].
  apply fsum_nonneg. intros j w [_ Hj]%lookup_delete_Some. eauto.
Qed.
Lemma fsum_add {A} (f g : K -> A -> Z) m :
  fsum (fun k v => f k v + g k v) m = fsum f m + fsum g m.
Proof.
  induction m as [|k v m Hk IH] using map_ind.
  - by rewrite !fsum_empty.
  - rewrite !fsum_insert_fresh by auto. lia.
Qed.
Lemma fsum_scale {A} (f : K -> A -> Z) m c :
  fsum (fun k v => c * f k v) m = c * fsum f m.
Proof.
  induction m as [|k v m Hk IH] using map_ind.
  - rewrite !fsum_empty. lia.
  - rewrite !fsum_insert_fresh by auto. lia.
Qed.

Lemma msum_fsum (m : gmap K Z) : msum m = fsum (fun _ v => v) m.
Proof. done. Qed.
Lemma msum_empty : msum (∅ : gmap K Z) = 0.
Proof. apply map_fold_empty. Qed.
Lemma msum_insert (m : gmap K Z) k v : msum (<[k := v]> m) = msum m - mget m k + v.
Proof.
  rewrite !msum_fsum. unfold mget. destruct (m !! k) as [w|] eqn:E; cbn.
  - by rewrite (fsum_insert_old _ _ _ _ w).
  - rewrite fsum_insert_fresh; auto. lia.
Qed.
Lemma msum_addz (m : gmap K Z) k d : msum (addz k d m) = msum m + d.
Proof. unfold addz. rewrite msum_insert. lia. Qed.
Lemma mget_insert (m : gmap K Z) k v : mget (<[k := v]> m) k = v.
Proof. unfold mget. by rewrite lookup_insert. Qed.
Lemma mget_insert_ne (m : gmap K Z) k j v : j <> k -> mget (<[k := v]> m) j = mget m j.
Proof. intros. unfold mget. rewrite lookup_insert_ne; auto. Qed.
Lemma mget_addz (m : gmap K Z) k d j :
  mget (addz k d m) j = mget m j + if decide (j = k) then d else 0.
Proof.
  unfold addz. destruct (decide (j = k)) as [->|].
  - by rewrite mget_insert.
  - rewrite mget_insert_ne; auto. lia.
Qed.
Lemma addz_addz (m : gmap K Z) k x y : addz k x (addz k y m) = addz k (y + x) m.
Proof. unfold addz at 1. rewrite mget_addz, decide_True by done. unfold addz. rewrite insert_insert. f_equal. lia. Qed.
Lemma addz_comm (m : gmap K Z) j k x y : addz j x (addz k y m) = addz k y (addz j x m).
Proof.
  destruct (decide (j = k)) as [->|Hn]; [rewrite !addz_addz; f_equal; lia|].
  unfold addz at 1 3. rewrite !mget_addz. rewrite !decide_False by congruence. rewrite !Z.add_0_r.
  unfold addz. by rewrite insert_commute.
Qed.
Lemma addz_0 (m : gmap K Z) k : is_Some (m !! k) -> addz k 0 m = m.
Proof. intros [z Hz]. unfold addz, mget. rewrite Hz. cbn. rewrite Z.add_0_r. by apply insert_id. Qed.
Lemma msum_get_le (m : gmap K Z) k :
  (forall j, 0 <= mget m j) -> mget m k <= msum m.
Proof.
  intros Hn. rewrite msum_fsum. unfold mget at 1. destruct (m !! k) as [v|] eqn:E; cbn.
  - apply (fsum_elem_le (fun _ v => v) m k v); auto.
    intros j w Hj. specialize (Hn j). unfold mget in Hn. rewrite Hj in Hn. done.
  - apply fsum_nonneg. intros j w Hj. specialize (Hn j). unfold mget in Hn. rewrite Hj in Hn. done.
Qed.
End sums.
