(** The end of season one. *)
From Verif Require Export FrameP.

Lemma fsum_filter {K A} `{Countable K} (P : K -> bool) (f : K -> A -> Z) (m : gmap K A) : (forall k v, P k = false -> f k v = 0) ->
  fsum f m = fsum f (filter (fun kv : K * A => P kv.1 = true) m).
Proof.
  intros Hf. induction m as [|k v m Hk IH] using map_ind; [by rewrite map_filter_empty|].
  rewrite fsum_insert_fresh by done. destruct (P k) eqn:E.
  - rewrite map_filter_insert_True by done. rewrite fsum_insert_fresh, IH; [done|]. apply map_filter_lookup_None. by left.
  - rewrite map_filter_insert_False by (cbn; congruence). rewrite delete_notin by done. rewrite Hf by done. lia.
Qed.
Lemma stake_agree s s' a v : (forall t, positions s' !! (a, v, t) = positions s !! (a, v, t)) -> stake s' a v = stake s a v.
Proof.
  intros H. unfold stake. rewrite !position_sum_fsum. set (P := fun k : addr * Z * Z => bool_decide (k.1 = (a, v))).
  rewrite (fsum_filter P _ (v_positions (st_vaults s'))), (fsum_filter P _ (v_positions (st_vaults s))) by (intros k p E; subst P; cbn in *; by rewrite E).
  f_equal. apply map_eq. intros [[a' v'] t]. apply option_eq. intros p. rewrite !map_filter_lookup_Some. subst P; cbn.
  rewrite !bool_decide_eq_true. split; intros [H1 [= -> ->]]; (split; [|done]); specialize (H t); unfold positions in H; congruence.
Qed.
Lemma no_stake s a v t : pos_wf s -> stake s a v = 0 -> positions s !! (a, v, t) = None.
Proof.
  intros Hw H. destruct (positions s !! (a, v, t)) as [p|] eqn:E; [|done]. exfalso.
  rewrite <- stake_list in H. assert (Hin : p ∈ positions_of s a v) by (apply elem_positions; eauto).
  pose proof (pos_wf_positive _ a v Hw) as Hpos. revert H Hin Hpos. generalize (positions_of s a v). clear.
  intros l H Hin Hpos. assert (forall l, Forall (fun p => 0 < pos_amount p) l -> 0 <= list_sum pos_amount l) as Hnn.
  { intros l0. induction 1; [done|]. rewrite list_sum_cons. lia. }
  induction Hin as [|? ? ? Hin IH]; rewrite list_sum_cons in H; apply Forall_cons in Hpos as [H1 H2].
  - specialize (Hnn _ H2). lia.
  - pose proof (Hnn _ H2). lia.
Qed.

Global Instance string_le_antisymm : AntiSymm (=) string_le.
Proof.
  intros a. induction a as [|x a IH]; intros b H1 H2.
  - by destruct b.
  - destruct b as [|y b]; [done|]. rewrite string_le_cons in *. destruct H1 as [H1|[-> H1]], H2 as [H2|[E H2]]; try lia.
    + subst. lia.
    + f_equal. by apply IH.
Qed.

Definition leave (c : config) (s : state) (a : addr) : op := OpUnlock (c_enc c a) FLEXIBLE (Some (stake s a FLEXIBLE)).
Definition all_succeed (c : config) (s : state) (l : list op) : Prop :=
  forall l1 o l2, l = l1 ++ o :: l2 -> succeeds c (run c s l1) o = true.
Lemma all_succeed_cons c s o l : all_succeed c s (o :: l) <-> succeeds c s o = true /\ all_succeed c (step c s o) l.
Proof.
  split.
  - intros H. split; [apply (H [] o l); done|]. intros l1 o' l2 ->. apply (H (o :: l1) o' l2). done.
  - intros [H1 H2] [|o1 l1] o' l2 [= <- ?]; [done|]. subst l. by apply (H2 l1 o' l2).
Qed.
Lemma succeeds_step c s o : succeeds c s o = true -> exec c o s = Ok (step c s o) tt.
Proof. unfold succeeds, step. destruct (exec c o s) as [? []| |]; done. Qed.

Lemma unlock_inner c g v x s s' : exec c (OpUnlock g v x) s = Ok s' tt -> unlock_internal c g v x s = Ok s' tt.
Proof.
  intros H. cbn in H. apply signed_ok in H as [H _]. unfold unlock, gets, bind in H.
  destruct (_ && _); [done|]. destruct (_ || _); [done|exact H].
Qed.
Lemma leaves_run c (us : list (string * Z)) : forall s,
  all_succeed c s ((fun ov => OpUnlock ov.1 FLEXIBLE (Some ov.2)) <$> us) ->
  for_each (fun ov : string * Z => try (unlock_internal c ov.1 FLEXIBLE (Some ov.2));;; ret tt) us s =
  Ok (run c s ((fun ov => OpUnlock ov.1 FLEXIBLE (Some ov.2)) <$> us)) tt.
Proof.
  induction us as [|[g x] us IH]; intros s H; [done|]. rewrite fmap_cons in H. apply all_succeed_cons in H as [H1 H2].
  pose proof (unlock_inner _ _ _ _ _ _ (succeeds_step _ _ _ H1)) as E. cbn [for_each].
  unfold bind at 1. unfold bind at 1. unfold try at 1. cbn [fst snd] in *. rewrite E. cbn. rewrite IH by exact H2. done.
Qed.

Lemma leaves_positions c (us : list addr) : forall s s0, chain_ok c -> winv c s -> NoDup us ->
  (forall a, a ∈ us -> stake s a FLEXIBLE = stake s0 a FLEXIBLE) ->
  all_succeed c s (leave c s0 <$> us) -> let s' := run c s (leave c s0 <$> us) in
  (forall a t, a ∈ us -> positions s' !! (a, FLEXIBLE, t) = None) /\
  (forall a v t, a ∉ us \/ v <> FLEXIBLE -> positions s' !! (a, v, t) = positions s !! (a, v, t)) /\ winv c s'.
Proof.
  induction us as [|a us IH]; intros s s0 Hc Hw Hnd Hst H.
  { cbn. split; [|done]. intros a t Ha. by apply elem_of_nil in Ha. }
  rewrite fmap_cons in H. apply all_succeed_cons in H as [H1 H2]. apply NoDup_cons in Hnd as [Hna Hnd].
  pose proof (succeeds_step _ _ _ H1) as E. pose proof E as E'. unfold leave in E'.
  destruct (unlock_effect _ _ _ _ _ _ Hc Hw E') as (b & x & Hd & [= Hx] & _ & _ & _ & _ & Hs' & _ & Hot & _). fold (leave c s0 a) in *.
  rewrite (codec_roundtrip _ (ok_codec _ Hc)) in Hd. injection Hd as ->.
  assert (Hw1 : winv c (step c s (leave c s0 (AUser b)))).
  { by apply (winv_run c s [leave c s0 (AUser b)]). }
  set (s1 := step c s (leave c s0 (AUser b))) in *.
  destruct (IH s1 s0 Hc Hw1 Hnd) as (A & B & C); [|done|].
  { intros a' Ha'. rewrite <- Hst by (by right). apply stake_agree. intros t. apply Hot. cbn. intros [= ->]. done. }
  assert (R : run c s (leave c s0 <$> AUser b :: us) = run c s1 (leave c s0 <$> us)) by done. rewrite R.
  split; [|split; [|done]].
  - intros a' t Ha'. apply elem_of_cons in Ha' as [->|Ha']; [|by apply A].
    rewrite B by (by left). apply no_stake; [apply Hw1|]. rewrite Hs', <- Hx, Hst by (by left). lia.
  - intros a' v t Ha'. rewrite B; [apply Hot; cbn; intros [= -> ->]; destruct Ha' as [Ha'|Ha']; [apply Ha'; by left|done]|].
    destruct Ha' as [Ha'|Ha']; [left; intros ?; apply Ha'; by right|by right].
Qed.

Lemma elem_flexible_owners s a : a ∈ flexible_owners s <-> a ∈ stakers s FLEXIBLE.
Proof.
  unfold flexible_owners. rewrite elem_of_remove_dups, elem_of_list_omap, elem_stakers. split.
  - intros ([[[a' v] t] p] & Hin & Hd). apply elem_of_map_to_list in Hin. cbn in Hd. case_decide; [|done]. injection Hd as ->. subst. eauto.
  - intros (t & p & Hp). exists (a, FLEXIBLE, t, p). split; [by apply elem_of_map_to_list|]. cbn. by rewrite decide_True.
Qed.
Theorem season_end c s us : chain_ok c -> reachable c s ->
  StronglySorted string_le (c_enc c <$> us) -> NoDup us -> (forall a, a ∈ us <-> a ∈ stakers s FLEXIBLE) ->
  let msgs := (fun a => OpUnlock (c_enc c a) FLEXIBLE (Some (stake s a FLEXIBLE))) <$> us in
  all_succeed c s msgs -> let s' := run c s msgs in
  end_season_one c s = Ok s' tt /\
  (forall a t, positions s' !! (a, FLEXIBLE, t) = None) /\
  (forall a t, positions s' !! (a, STAKED, t) = positions s !! (a, STAKED, t)).
Proof.
  intros Hc Hr Hso Hnd Hus msgs Hall s'. pose proof (winv_reachable _ _ Hc Hr) as Hw.
  change msgs with (leave c s <$> us) in *.
  destruct (leaves_positions c us s s Hc Hw Hnd ltac:(done) Hall) as (A & B & _).
  split; [|split].
  - assert (Eo : merge_sort string_le (c_enc c <$> flexible_owners s) = c_enc c <$> us).
    { apply (StronglySorted_unique string_le); [apply StronglySorted_merge_sort; apply _|done|].
      rewrite merge_sort_Permutation. apply fmap_Permutation, NoDup_Permutation; [apply NoDup_remove_dups|done|].
      intros a. by rewrite elem_flexible_owners, Hus. }
    unfold end_season_one. unfold bind at 1, gets at 1. rewrite Eo. unfold bind at 1, gets at 1.
    set (l := _ <$> (c_enc c <$> us)).
    assert (El : (fun ov : string * Z => OpUnlock ov.1 FLEXIBLE (Some ov.2)) <$> l = leave c s <$> us).
    { subst l. rewrite <- !list_fmap_compose. apply list_fmap_ext. intros _ a _. unfold compose. cbn [fst snd].
      rewrite (codec_roundtrip _ (ok_codec _ Hc)). unfold leave. do 2 f_equal. rewrite <- stake_list. generalize (positions_of s a FLEXIBLE). intros l. induction l as [|p l IH]; [done|]. cbn. rewrite IH. done. }
    subst s'. rewrite <- El. apply leaves_run. by rewrite El.
  - intros a t. destruct (decide (a ∈ us)) as [Ha|Ha]; [by apply A|]. subst s'. rewrite B by (by left).
    destruct (positions s !! (a, FLEXIBLE, t)) eqn:E; [|done]. exfalso. apply Ha, Hus, elem_stakers. eauto.
  - intros a t. apply B. by right.
Qed.
