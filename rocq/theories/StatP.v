(** The statistics of the vaults. *)
From Verif Require Export StakeP.

(** * Users *)
Lemma elem_stakers s v a : a ∈ stakers s v <-> exists t, is_Some (v_positions (st_vaults s) !! (a, v, t)).
Proof.
  unfold stakers. rewrite elem_of_map. split.
  - intros ([[u w] t] & -> & H). apply elem_of_filter in H as [Hw H]. cbn in Hw. subst w. apply elem_of_dom in H. by exists t.
  - intros (t & H). exists (a, v, t). split; [done|]. apply elem_of_filter. split; [done|]. by apply elem_of_dom.
Qed.
Lemma no_positions s a v : length (positions_of s a v) = 0%nat <-> a ∉ stakers s v.
Proof.
  rewrite elem_stakers. split.
  - intros H%nil_length_inv (t & p & Hp). assert (p ∈ positions_of s a v) as Hin by (apply elem_positions; eauto).
    rewrite H in Hin. inversion Hin.
  - intros H. destruct (positions_of s a v) as [|p l] eqn:E; [done|]. exfalso. apply H.
    assert (p ∈ positions_of s a v) as (t & Hp)%elem_positions by (rewrite E; by left). eauto.
Qed.
Lemma positions_length s a v : Z.of_nat (length (positions_of s a v)) = psum (fun _ => 1) a v (v_positions (st_vaults s)).
Proof.
  rewrite <- positions_sum. unfold list_sum. induction (positions_of s a v); cbn [length foldr]; lia.
Qed.
Definition staker_count (s : state) (v : Z) : Z := Z.of_nat (size (stakers s v)).
Definition users_ok (s : state) : Prop := forall v, a_vault v -> vault_users s v = staker_count s v mod 2 ^ 64.
Lemma stakers_same s s' v : v_positions (st_vaults s') = v_positions (st_vaults s) -> stakers s' v = stakers s v.
Proof. intros E. unfold stakers, positions. by rewrite E. Qed.
Lemma users_fresh c s : fresh c s -> users_ok s.
Proof.
  intros [_ _ _ _ _ _ _ _ _ Hp _ _ Hs _ _ _ _ _ _] v Hv. unfold vault_users, staker_count, stakers, positions. rewrite Hp, Hs.
  rewrite dom_empty_L. destruct Hv as [-> | ->]; done.
Qed.
Lemma users_step c o s s' : chain_ok c -> winv c s -> exec c o s = Ok s' tt -> users_ok s -> users_ok s'.
Proof.
  intros Hc Hw E H. destruct (lock_op o) eqn:Ho.
  2:{ destruct (stakes_same _ _ _ _ Hc Hw Ho E) as (Ep & _ & Es). intros v Hv. unfold staker_count, vault_users. rewrite (stakers_same s), Es by done. by apply H. }
  destruct o; try discriminate.
  - destruct (lock_inv' _ _ _ _ _ _ Hc E) as (b & x & D & -> & _ & _ & _ & H4 & H5 & H6 & ->).
    set (h := position_account signer vault _). set (sl := lock_state s (AUser b) h vault x).
    assert (EP : v_positions (st_vaults sl) = <[(AUser b, vault, x_now (st_world s)) := mk_position (down x (current_index s)) (current_index s) x (x_now (st_world s))]> (v_positions (st_vaults s))).
    { pose proof (lock_positions s (AUser b) h vault x) as HL. exact HL. }
    assert (ES : v_stats (st_vaults sl) = v_stats (st_vaults s)).
    { unfold sl, lock_state, add_flex. destruct (vault =? FLEXIBLE); done. }
    assert (EL : Nat.eqb (length (positions_of sl (AUser b) vault)) 1 = bool_decide (AUser b ∉ stakers s vault)).
    { apply eq_bool_prop_intro. rewrite bool_decide_spec, Is_true_true, Nat.eqb_eq, <- no_positions.
      pose proof (positions_length sl (AUser b) vault) as L1. pose proof (positions_length s (AUser b) vault) as L2.
      rewrite EP in L1. unfold psum in L1. rewrite fsum_insert_fresh in L1 by done. fold (psum (fun _ => 1) (AUser b) vault (v_positions (st_vaults s))) in L1.
      cbn [fst snd] in L1. rewrite decide_True in L1 by done. lia. }
    assert (EK : stakers (lock_result s (AUser b) h vault x) vault = {[AUser b]} ∪ stakers s vault).
    { apply leibniz_equiv. intros u. rewrite elem_of_union, elem_of_singleton, !elem_stakers, lock_positions. split.
      - intros (t & Ht). destruct (decide (u = AUser b)); [by left|right]. exists t. rewrite lookup_insert_ne in Ht by congruence. done.
      - intros [->|(t & Ht)]; [exists (x_now (st_world s)); rewrite lookup_insert; eauto|].
        exists t. apply lookup_insert_is_Some'. by right. }
    assert (EO : forall w, w <> vault -> stakers (lock_result s (AUser b) h vault x) w = stakers s w).
    { intros w Hne. apply leibniz_equiv. intros u. rewrite !elem_stakers, lock_positions. split; intros (t & Ht); exists t;
        [rewrite lookup_insert_ne in Ht by congruence|rewrite lookup_insert_ne by congruence]; done. }
    intros w Hwv. unfold lock_result. fold sl. unfold vault_users, with_stats. cbn [st_vaults v_stats set]. rewrite ES, EL.
    change (staker_count _ w) with (staker_count (lock_result s (AUser b) h vault x) w).
    pose proof (H w Hwv) as Hu. unfold vault_users in Hu. unfold staker_count in *.
    destruct (decide (w = vault)) as [->|Hne].
    + rewrite EK. unfold vprin_add, users_up. destruct (decide (AUser b ∈ stakers s vault)) as [Hin|Hin].
      * rewrite bool_decide_false by (intros Hn; by apply Hn). rewrite (subseteq_union_1_L {[AUser b]}) by set_solver.
        destruct H5 as [-> | ->]; exact Hu.
      * rewrite bool_decide_true by done. rewrite size_union by (by apply disjoint_singleton_l). rewrite size_singleton.
        destruct H5 as [-> | ->]; cbn; cbn in Hu; rewrite Hu; unfold wrap_u64; rewrite Zplus_mod_idemp_l; f_equal; lia.
    + rewrite EO by done. rewrite <- Hu. unfold vprin_add, users_up. destruct Hwv as [-> | ->], H5 as [-> | ->]; try done; destruct (bool_decide _); done.
  - destruct (unlock_effect _ _ _ _ _ _ Hc Hw E) as (b & x & D & -> & V & _ & Hx & _ & _ & _ & HO & _). destruct Hw as [Hw Hp].
    destruct (unlock_inv' _ _ _ _ _ _ Hp E) as (b' & x' & d & s1 & D' & [= <-] & _ & _ & _ & H4 & H5 & H6 & Hu & ->).
    assert (b' = b) as -> by congruence.
    destruct (unls_frame _ _ _ _ _ _ _ _ _ Hu) as (Em & _ & _ & _ & _ & (ES1 & ES2 & ES3 & ES4) & _).
    set (s2 := unlock_result s1 (AUser b) vault d) in *.
    assert (Hin : AUser b ∈ stakers s vault).
    { rewrite stake_list in H5. destruct (decide (AUser b ∈ stakers s vault)) as [|Hn]; [done|exfalso].
      apply no_positions, nil_length_inv in Hn. rewrite <- stake_list, Hn in H5. cbn in H5. lia. }
    assert (EL : Nat.eqb (length (positions_of s1 (AUser b) vault)) 0 = bool_decide (AUser b ∉ stakers s2 vault)).
    { apply eq_bool_prop_intro. rewrite bool_decide_spec, Is_true_true, Nat.eqb_eq, no_positions. done. }
    assert (EK : forall u, u <> AUser b -> u ∈ stakers s2 vault <-> u ∈ stakers s vault).
    { intros u Hne. rewrite !elem_stakers. split; intros (t & Ht); exists t; specialize (HO (u, vault, t)); unfold positions in HO;
        [rewrite <- HO by (cbn; congruence)|rewrite HO by (cbn; congruence)]; done. }
    assert (EO : forall w, w <> vault -> stakers s2 w = stakers s w).
    { intros w Hne. apply leibniz_equiv. intros u. rewrite !elem_stakers. split; intros (t & Ht); exists t; specialize (HO (u, w, t)); unfold positions in HO;
        [rewrite <- HO by (cbn; congruence)|rewrite HO by (cbn; congruence)]; done. }
    intros w Hwv. pose proof (H w Hwv) as Hu'. unfold vault_users, staker_count in *.
    destruct (decide (w = vault)) as [->|Hne].
    + unfold s2 at 1 2. unfold unlock_result, with_stats. cbn [st_vaults v_stats set]. rewrite EL. unfold vprin_add, users_down.
      destruct (decide (AUser b ∈ stakers s2 vault)) as [Hin'|Hin'].
      * rewrite bool_decide_false by (intros Hn; by apply Hn).
        assert (stakers s2 vault = stakers s vault) as ->.
        { apply leibniz_equiv. intros u. destruct (decide (u = AUser b)) as [->|Hn]; [done|by apply EK]. }
        destruct V as [-> | ->]; cbn; cbn in Hu'; congruence.
      * rewrite bool_decide_true by done.
        assert (stakers s vault = {[AUser b]} ∪ stakers s2 vault) as Eu.
        { apply leibniz_equiv. intros u. rewrite elem_of_union, elem_of_singleton. destruct (decide (u = AUser b)) as [->|Hn]; [tauto|]. rewrite EK by done. tauto. }
        rewrite Eu, size_union, size_singleton in Hu' by (by apply disjoint_singleton_l).
        destruct V as [-> | ->]; cbn; cbn in Hu'; rewrite ?ES2, ?ES4, Hu'; unfold wrap_u64; rewrite Zminus_mod_idemp_l; f_equal; lia.
    + rewrite EO by done. rewrite <- Hu'. unfold s2, unlock_result, with_stats. cbn [st_vaults v_stats set]. unfold vprin_add, users_down.
      destruct Hwv as [-> | ->], V as [-> | ->]; try done; destruct (Nat.eqb _ _); cbn; congruence.
Qed.
Theorem users_counted c s v : chain_ok c -> reachable c s -> a_vault v ->
  vault_users s v = Z.of_nat (size (stakers s v)) mod 2 ^ 64.
Proof.
  intros Hc Hr. revert v. apply (reachable_inv users_ok c s Hc Hr).
  - apply users_fresh.
  - intros; by eapply users_step.
Qed.

(** * Principal totals *)
Lemma down_super x y i : 0 <= x -> 0 <= y -> 0 < i -> down x i + down y i <= down (x + y) i <= down x i + down y i + 1.
Proof.
  intros. rewrite !down_div by lia. assert (0 <= e12) by (unfold e12; lia).
  pose proof (Z.div_mod (x * e12) i). pose proof (Z.div_mod (y * e12) i). pose proof (Z.div_mod ((x + y) * e12) i).
  pose proof (Z.mod_pos_bound (x * e12) i). pose proof (Z.mod_pos_bound (y * e12) i). pose proof (Z.mod_pos_bound ((x + y) * e12) i).
  revert H3 H4 H5 H6 H7 H8. generalize ((x + y) * e12 / i), (x * e12 / i), (y * e12 / i), ((x + y) * e12 `mod` i), (x * e12 `mod` i), (y * e12 `mod` i).
  intros. nia.
Qed.
Lemma down_nonneg' a i : 0 <= a -> 0 < i -> 0 <= down a i.
Proof. intros. rewrite down_div by lia. apply Z.div_pos; unfold e12; lia. Qed.

Definition rounded (p : position) : Z := down (pos_amount p) (pos_index p).
(** Sum of the rounded-down stakes of a vault. *)
Definition down_total (s : state) (w : Z) : Z := position_sum (fun k => k.1.2 =? w) rounded s.
Definition prin_ok (m : gmap (addr * Z * Z) position) : Prop := forall k p, m !! k = Some p ->
  0 < pos_amount p /\ 0 < pos_index p /\ rounded p <= pos_principal p.
Lemma prin_ok_upos m a v p part : prin_ok m -> m !! (a, v, pos_time p) = Some p -> 0 < part <= pos_amount p ->
  prin_ok (upos_map a v p part m).
Proof.
  intros Hm Hp Hpart k q. unfold upos_map. destruct (Z.leb_spec (pos_amount p) part).
  - rewrite lookup_delete_Some. intros [_ Hq]. eauto.
  - rewrite lookup_insert_Some. intros [[_ <-]|[_ Hq]]; [|eauto]. destruct (Hm _ _ Hp) as (H1 & H2 & H3). unfold cut, rounded in *. cbn.
    split; [lia|]. split; [done|]. pose proof (down_super (pos_amount p - part) part (pos_index p) ltac:(lia) ltac:(lia) H2) as H4.
    replace (pos_amount p - part + part) with (pos_amount p) in H4 by lia. lia.
Qed.
Lemma unls_prin_ok g a v l rem s rem' d s' : in_map (v_positions (st_vaults s)) a v l -> 0 <= rem ->
  unls g a v l rem s rem' d s' -> prin_ok (v_positions (st_vaults s)) ->
  prin_ok (v_positions (st_vaults s')) /\
  (forall w, total_stake_principal s' w <= total_stake_principal s w - (if v =? w then d else 0)) /\
  (forall w, down_total s' w <= down_total s w - (if v =? w then d else 0)) /\ 0 <= d.
Proof.
  intros Hm Hr H.
  apply (unls_rel (fun s x d s' => prin_ok (v_positions (st_vaults s)) -> prin_ok (v_positions (st_vaults s')) /\
    (forall w, total_stake_principal s' w <= total_stake_principal s w - (if v =? w then d else 0)) /\
    (forall w, down_total s' w <= down_total s w - (if v =? w then d else 0)) /\ 0 <= d) g a v) with (l := l) (d := d) in H as [_ H]; auto.
  - intros s0 H0. split; [done|]. split; [|split; [|done]]; intros w; destruct (v =? w); lia.
  - intros s0 x0 d0 s1 y0 e0 s2 _ _ A B H0. destruct (A H0) as (A1 & A2 & A3 & A4). destruct (B A1) as (B1 & B2 & B3 & B4).
    split; [done|]. split; [|split; [|lia]]; intros w; specialize (A2 w); specialize (B2 w); specialize (A3 w); specialize (B3 w); destruct (v =? w); lia.
  - intros p part s0 s1 Hp Hpart E _ H0. destruct (H0 _ _ Hp) as (P1 & P2 & P3). unfold rounded in P3.
    pose proof (down_super (pos_amount p - part) part (pos_index p) ltac:(lia) ltac:(lia) P2) as H4.
    pose proof (down_nonneg' part (pos_index p) ltac:(lia) P2). pose proof (down_nonneg' (pos_amount p - part) (pos_index p) ltac:(lia) P2).
    replace (pos_amount p - part + part) with (pos_amount p) in H4 by lia.
    split; [rewrite E; by apply prin_ok_upos|]. split; [|split; [|done]].
    + intros w. unfold total_stake_principal. rewrite !position_sum_fsum, E, fsum_upos by done. cbn [fst snd].
      destruct (v =? w); [|destruct (_ <=? _); lia]. destruct (Z.leb_spec (pos_amount p) part); cbn; lia.
    + intros w. unfold down_total. rewrite !position_sum_fsum, E, fsum_upos by done. cbn [fst snd].
      destruct (v =? w); [|destruct (_ <=? _); lia]. unfold rounded. destruct (Z.leb_spec (pos_amount p) part); cbn; lia.
Qed.
(** At most one position is cut, which loses at most one unit. *)
Lemma unls_loss g a v l : forall rem s rem' d s', in_map (v_positions (st_vaults s)) a v l -> 0 <= rem ->
  unls g a v l rem s rem' d s' -> prin_ok (v_positions (st_vaults s)) ->
  down_total s v - d - (if rem =? 0 then 0 else 1) <= down_total s' v.
Proof.
  induction l as [|p l IH]; intros rem s rem' d s' Hm Hrem H Hok.
  - inversion H; subst. destruct (_ =? _); lia.
  - inversion H as [|?|? ? ? ? s1 ? ? d' Hne H1 H2]; subst; [destruct (_ =? _); lia|].
    destruct (proj2 Hm p) as [Hp Hpos]; [by left|]. destruct (Hok _ _ Hp) as (P1 & P2 & P3).
    pose proof (part_pos p rem Hpos Hrem Hne) as [Q1 Q2]. unfold part_of in *.
    set (z := if rem <? pos_amount p then rem else pos_amount p) in *.
    destruct (unl1_frame _ _ _ _ _ _ _ H1) as (Em & _).
    assert (Hok1 : prin_ok (v_positions (st_vaults s1))) by (rewrite Em; apply prin_ok_upos; [done|done|lia]).
    apply in_map_tail with (part := z) in Hm. rewrite <- Em in Hm.
    assert (Hz0 : 0 <= rem - z) by lia. pose proof (IH _ _ _ _ _ Hm Hz0 H2 Hok1) as I1.
    rewrite (proj2 (Z.eqb_neq rem 0)) by done.
    assert (EQ : down_total s1 v = down_total s v - rounded p + (if pos_amount p <=? z then 0 else rounded (cut p z))).
    { unfold down_total. rewrite !position_sum_fsum, Em, fsum_upos by done. cbn [fst snd]. by rewrite Z.eqb_refl. }
    unfold rounded, cut in EQ. cbn in EQ. unfold z in *. destruct (Z.ltb_spec rem (pos_amount p)).
    + rewrite Z.sub_diag in I1. cbn in I1. rewrite (proj2 (Z.leb_gt _ _)) in EQ by lia.
      pose proof (down_super (pos_amount p - rem) rem (pos_index p) ltac:(lia) ltac:(lia) P2) as H4.
      replace (pos_amount p - rem + rem) with (pos_amount p) in H4 by lia. lia.
    + rewrite Z.leb_refl in EQ. destruct (_ =? _); lia.
Qed.
Record totals_ok (v k : Z) (s : state) : Prop := {
  to_pos : prin_ok (v_positions (st_vaults s));
  to_flex : v_total_flex (st_vaults s) = vault_total s FLEXIBLE;
  to_low : forall v, a_vault v -> total_stake_principal s v <= vault_total s v;
  to_high : a_vault v -> vault_total s v <= down_total s v + k
}.
(* unlocks: Spec.v *)
Lemma totals_same v k s s' : v_positions (st_vaults s') = v_positions (st_vaults s) -> v_total_flex (st_vaults s') = v_total_flex (st_vaults s) ->
  v_stats (st_vaults s') = v_stats (st_vaults s) -> totals_ok v k s -> totals_ok v k s'.
Proof.
  intros E1 E2 E3 [T1 T2 T3 T4]. constructor; unfold vault_total, total_stake_principal, down_total, position_sum, positions in *; rewrite ?E1, ?E2, ?E3; done.
Qed.
Lemma vault_total_lock s a h v x w : a_vault v -> a_vault w ->
  vault_total (lock_result s a h v x) w = vault_total s w + (if v =? w then down x (current_index s) else 0).
Proof.
  intros Hv Hw. unfold lock_result. set (sl := lock_state s a h v x).
  assert (ES : v_stats (st_vaults sl) = v_stats (st_vaults s)).
  { unfold sl, lock_state, add_flex. destruct (v =? FLEXIBLE); done. }
  unfold vault_total, with_stats. cbn [st_vaults v_stats set]. rewrite ES. unfold vprin_add, users_up.
  destruct Hw as [-> | ->], Hv as [-> | ->]; destruct (Nat.eqb _ _); cbn; lia.
Qed.
Lemma vault_total_unlock s s1 a v d w : a_vault v -> a_vault w ->
  vs_flex_principal (v_stats (st_vaults s1)) = vs_flex_principal (v_stats (st_vaults s)) ->
  vs_staked_principal (v_stats (st_vaults s1)) = vs_staked_principal (v_stats (st_vaults s)) ->
  vault_total (unlock_result s1 a v d) w = vault_total s w - (if v =? w then d else 0).
Proof.
  intros Hv Hw E1 E2. unfold unlock_result, vault_total, with_stats. cbn [st_vaults v_stats set]. unfold vprin_add, users_down.
  destruct Hw as [-> | ->], Hv as [-> | ->]; destruct (Nat.eqb _ _); cbn; lia.
Qed.
Lemma totals_step c o s s' w k : chain_ok c -> winv c s -> totals_ok w k s -> exec c o s = Ok s' tt -> totals_ok w (k + unlocks w s o) s'.
Proof.
  intros Hc Hw H E. destruct (lock_op o) eqn:Ho.
  2:{ destruct (stakes_same _ _ _ _ Hc Hw Ho E) as (E1 & E2 & E3). replace (k + unlocks w s o) with k by (destruct o; cbn; try lia; discriminate).
      by eapply totals_same. }
  destruct H as [T1 T2 T3 T4]. destruct o; try discriminate.
  - destruct (lock_inv' _ _ _ _ _ _ Hc E) as (b & x & D & -> & _ & _ & _ & H4 & H5 & H6 & ->). cbn [unlocks]. rewrite Z.add_0_r.
    pose proof (ok_min_lock _ Hc). pose proof (wf_index _ _ (wi_wfs _ _ Hw)) as Hidx. set (h := position_account signer vault _).
    pose proof (down_nonneg' x (current_index s) ltac:(lia) ltac:(lia)).
    constructor.
    + rewrite lock_positions. intros kk q. rewrite lookup_insert_Some. intros [[_ <-]|[_ Hq]]; [|eauto]. cbn. unfold rounded. cbn. lia.
    + rewrite vault_total_lock by (done || by right). rewrite <- T2. unfold lock_result, lock_state, with_stats, add_flex. destruct (vault =? FLEXIBLE); cbn; lia.
    + intros v' Hwv. rewrite vault_total_lock by done. unfold total_stake_principal. rewrite position_sum_fsum, lock_positions, fsum_insert_fresh by done. cbn [fst snd pos_principal].
      specialize (T3 v' Hwv). unfold total_stake_principal in T3. rewrite position_sum_fsum in T3. destruct (vault =? v'); lia.
    + intros Hwv. rewrite vault_total_lock by done. unfold down_total. rewrite position_sum_fsum, lock_positions, fsum_insert_fresh by done. cbn [fst snd].
      specialize (T4 Hwv). unfold down_total in T4. rewrite position_sum_fsum in T4. unfold rounded at 1. cbn. destruct (vault =? w); lia.
  - cbn [unlocks]. destruct Hw as [Hw Hp].
    destruct (unlock_inv' _ _ _ _ _ _ Hp E) as (b & x & d & s1 & D & -> & _ & _ & _ & H4 & H5 & H6 & Hu & ->).
    destruct (unls_frame _ _ _ _ _ _ _ _ _ Hu) as (Em & _ & _ & _ & ET & (ES1 & ES2 & ES3 & ES4) & _).
    pose proof (in_map_positions s (AUser b) vault Hp) as Hm. assert (Hx : 0 <= x) by lia.
    destruct (unls_prin_ok _ _ _ _ _ _ _ _ _ Hm Hx Hu T1) as (U1 & U2 & _ & _).
    pose proof (unls_loss _ _ _ _ _ _ _ _ _ Hm Hx Hu T1) as U3. rewrite (proj2 (Z.eqb_neq x 0)) in U3 by lia.
    constructor.
    + done.
    + rewrite (vault_total_unlock s) by (done || by right). rewrite <- T2. exact ET.
    + intros v' Hwv. rewrite (vault_total_unlock s) by done. specialize (T3 v' Hwv). specialize (U2 v'). change (total_stake_principal (unlock_result s1 (AUser b) vault d) v') with (total_stake_principal s1 v'). lia.
    + intros Hwv. rewrite (vault_total_unlock s) by done. specialize (T4 Hwv). change (down_total (unlock_result s1 (AUser b) vault d) w) with (down_total s1 w).
      destruct (Z.eqb_spec vault w) as [->|Hne]; [lia|].
      assert (down_total s1 w = down_total s w); [|lia].
      enough (0 <= x - 0 /\ down_total s1 w = down_total s w) by tauto.
      destruct (unls_rel (fun s _ _ s' => down_total s' w = down_total s w) signer (AUser b) vault) with (4 := Hm) (5 := Hx) (6 := Hu); [done|congruence| |lia].
      intros p part s2 s3 Hpp Hpart E' _. unfold down_total. rewrite !position_sum_fsum, E', fsum_upos by done. cbn [fst snd].
      rewrite (proj2 (Z.eqb_neq vault w)) by done. destruct (_ <=? _); lia.
Qed.
Lemma totals_fresh c s w : fresh c s -> totals_ok w 0 s.
Proof.
  intros [_ _ _ _ _ _ _ _ _ Hp _ Hf Hs _ _ _ _ _ _]. constructor; unfold prin_ok, vault_total, total_stake_principal, down_total; rewrite ?position_sum_fsum, ?Hp, ?Hf, ?Hs.
  - intros k p. by rewrite lookup_empty.
  - done.
  - intros v [-> | ->]; rewrite position_sum_fsum, Hp; done.
  - intros [-> | ->]; done.
Qed.
Theorem totals_run c s0 ops w : chain_ok c -> fresh c s0 -> totals_ok w (count_ops (unlocks w) c s0 ops) (run c s0 ops).
Proof.
  intros Hc Hf. rewrite <- (Z.add_0_l (count_ops _ _ _ _)). apply (count_rel (unlocks w) c (totals_ok w) Hc).
  - intros. by eapply totals_step.
  - by apply winv_fresh.
  - by eapply totals_fresh.
Qed.
Lemma down_total_le s w : prin_ok (v_positions (st_vaults s)) -> down_total s w <= total_stake_principal s w.
Proof.
  intros H. unfold down_total, total_stake_principal. rewrite !position_sum_fsum. apply fsum_le. intros k p Hp.
  destruct (_ =? _); [|lia]. by apply H in Hp as (_ & _ & ?).
Qed.
Theorem totals_drift c s0 ops v : chain_ok c -> fresh c s0 -> a_vault v ->
  let s := run c s0 ops in
  total_stake_principal s v <= vault_total s v <= total_stake_principal s v + count_ops (unlocks v) c s0 ops /\
  v_total_flex (st_vaults s) = vault_total s FLEXIBLE.
Proof.
  intros Hc Hf Hv s. destruct (totals_run c s0 ops v Hc Hf) as [T1 T2 T3 T4]. fold s in T1, T2, T3, T4.
  pose proof (down_total_le s v T1). specialize (T3 v Hv). specialize (T4 Hv). split; [lia|done].
Qed.
