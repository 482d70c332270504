(** Locking and unlocking: accounts, positions, backing, statistics. *)
From Verif Require Export AdminP.

(** * Position accounts *)
Lemma lower_enc c a : codec_ok c -> string_lower (c_enc c a) = c_enc c a.
Proof. intros H. apply (codec_canonical _ H), (codec_roundtrip _ H). Qed.
Lemma posacct c g a v t : codec_ok c -> c_dec c g = Some a -> position_account g v t = vault_account c v a t.
Proof.
  intros Hc Hd. unfold position_account, position_account_name, vault_account. rewrite (codec_canonical _ Hc _ _ Hd). by destruct (v =? FLEXIBLE).
Qed.
Lemma split_at (d : Ascii.ascii) x x' y y' :
  ~ d ∈ String.list_ascii_of_string x -> ~ d ∈ String.list_ascii_of_string x' ->
  x +:+ String d y = x' +:+ String d y' -> x = x' /\ y = y'.
Proof.
  revert x'. induction x as [|e x IH]; intros [|e' x']; cbn; intros H H' E.
  - by injection E as ->.
  - injection E as -> _. exfalso. apply H'. by left.
  - injection E as -> _. exfalso. apply H. by left.
  - injection E as -> E. rewrite elem_of_cons in H, H'. destruct (IH x') as [-> ->]; auto.
Qed.
Lemma app_inj_l (x y z : string) : x +:+ y = x +:+ z -> y = z.
Proof. induction x as [|? ? IH]; cbn; [done|]. intros [= ?]. auto. Qed.
Theorem account_private c a t a' t' : codec_ok c ->
  vault_account c FLEXIBLE a t = vault_account c FLEXIBLE a' t' -> a = a' /\ t = t'.
Proof.
  intros Hc. unfold vault_account. cbn [Z.eqb Pos.eqb]. change (FLEXIBLE =? FLEXIBLE) with true. cbn iota. intros E.
  assert (E' : c_enc c a +:+ "/" +:+ pretty t = c_enc c a' +:+ "/" +:+ pretty t').
  { eapply (app_inj_l "dollar/vaults/flexible/"). congruence. }
  change ("/" +:+ ?x) with (String slash x) in E'.
  apply split_at in E' as [E1 E2]; [|apply Hc|apply Hc]. split; [|by apply (inj pretty)].
  pose proof (codec_roundtrip _ Hc a) as H1. pose proof (codec_roundtrip _ Hc a') as H2. rewrite E1 in H1. congruence.
Qed.
Lemma flex_account_not c a t : let r := vault_account c FLEXIBLE a t in
  r <> ModuleA /\ r <> YieldA /\ r <> StakedA /\ r <> FlexibleA /\ r <> WarpA /\ r <> ManagerA /\
  (forall b, r <> AUser b) /\ (forall p ch, r <> AEscrow p ch).
Proof. unfold vault_account. cbn. repeat split; done. Qed.
Lemma vault_account_not c v a t : vault_account c v a t <> ModuleA /\ vault_account c v a t <> YieldA /\
  vault_account c v a t <> FlexibleA /\ vault_account c v a t <> WarpA /\ (forall b, vault_account c v a t <> AUser b) /\
  (forall p ch, vault_account c v a t <> AEscrow p ch) /\ external (vault_account c v a t) = false.
Proof. unfold vault_account. by destruct (v =? FLEXIBLE). Qed.

(** * Lock *)
Lemma lock_bank s a pa v amt : st_bank (lock_result s a pa v amt) = st_bank (send_result s a pa amt).
Proof. unfold lock_result, lock_state, add_flex, put_pos, with_stats. by destruct (v =? FLEXIBLE). Qed.
Lemma lock_dollar s a pa v amt : st_dollar (lock_result s a pa v amt) = st_dollar (send_result s a pa amt).
Proof. unfold lock_result, lock_state, add_flex, put_pos, with_stats. by destruct (v =? FLEXIBLE). Qed.
Lemma lock_others s a pa v amt : let s' := lock_result s a pa v amt in
  st_portal s' = st_portal s /\ st_world s' = st_world s /\ v_rewards (st_vaults s') = v_rewards (st_vaults s) /\
  v_paused (st_vaults s') = v_paused (st_vaults s) /\ v_ended (st_vaults s') = v_ended (st_vaults s) /\
  v_collector (st_vaults s') = v_collector (st_vaults s) /\
  v_total_flex (st_vaults s') = v_total_flex (st_vaults s) + (if v =? FLEXIBLE then down amt (current_index s) else 0).
Proof.
  unfold lock_result, lock_state, add_flex, put_pos, with_stats. destruct (v =? FLEXIBLE); cbn; rewrite ?Z.add_0_r; auto 10.
Qed.
Theorem lock_effect c s s' g v amount : chain_ok c -> reachable c s -> exec c (OpLock g v amount) s = Ok s' tt ->
  exists b x, c_dec c g = Some (AUser b) /\ amount = Some x /\ a_vault v /\ lock_open s v /\ c_min_lock c <= x <= bal s (AUser b) /\
  let a := AUser b in let t := x_now (st_world s) in let h := vault_account c v a t in
  positions s !! (a, v, t) = None /\
  positions s' = <[(a, v, t) := mk_position (floor_div (x * unit_index) (current_index s)) (current_index s) x t]> (positions s) /\
  (forall y, bal s' y = bal s y - on y a x + on y h x) /\
  (forall y, prin s' y = prin s y - on y a (ceil_div (x * unit_index) (current_index s)) + on y h (ceil_div (x * unit_index) (current_index s))) /\
  supply s' = supply s /\ current_index s' = current_index s /\ v_rewards (st_vaults s') = v_rewards (st_vaults s) /\
  st_portal s' = st_portal s /\ st_world s' = st_world s.
Proof.
  intros Hc Hr E. pose proof (reach_w _ _ Hc Hr) as Hw. pose proof (wf_index _ _ Hw) as Hidx.
  destruct (lock_inv' _ _ _ _ _ _ Hc E) as (b & x & D & -> & H1 & H2 & H3 & H4 & H5 & H6 & ->).
  rewrite (posacct c g (AUser b)) by (apply Hc || done).
  pose proof (ok_min_lock _ Hc). destruct (vault_account_not c v (AUser b) (x_now (st_world s))) as (N1 & N2 & N3 & N4 & N5 & _).
  exists b, x. split; [done|]. split; [done|]. split; [done|]. split; [split; auto|]. split; [lia|]. cbv zeta.
  destruct (lock_others s (AUser b) (vault_account c v (AUser b) (x_now (st_world s))) v x) as (L1 & L2 & L3 & _).
  split; [done|]. split; [unfold positions; rewrite lock_positions, down_floor by lia; done|].
  set (h := vault_account c v (AUser b) (x_now (st_world s))) in *.
  split.
  { intros y. transitivity (bal (send_result s (AUser b) h x) y); [unfold bal; by rewrite lock_bank|]. by rewrite bal_send. }
  split.
  { intros y. transitivity (prin (send_result s (AUser b) h x) y); [unfold prin; by rewrite lock_dollar|].
    rewrite prin_send, up_ceil by (done || lia). done. }
  split; [transitivity (supply (send_result s (AUser b) h x)); [unfold supply; by rewrite lock_bank|apply supply_send]|].
  split; [transitivity (current_index (send_result s (AUser b) h x)); [unfold current_index; by rewrite lock_dollar|apply index_send]|].
  auto.
Qed.
Theorem lock_accepted c s g b v x : chain_ok c -> reachable c s -> c_dec c g = Some (AUser b) ->
  a_vault v -> lock_open s v -> c_min_lock c <= x <= bal s (AUser b) ->
  positions s !! (AUser b, v, x_now (st_world s)) = None -> lock_in_range c s (AUser b) v x ->
  exists s', exec c (OpLock g v (Some x)) s = Ok s' tt.
Proof.
  intros Hc Hr D Hv (O1 & O2 & O3) Hx Hnone [F1 F2 F3]. pose proof (reach_w _ _ Hc Hr) as Hw. pose proof (wf_index _ _ Hw) as Hidx.
  pose proof (ok_min_lock _ Hc). destruct (vault_account_not c v (AUser b) (x_now (st_world s))) as (N1 & N2 & N3 & N4 & N5 & _).
  set (m := exec c _). enough (runs m s (fun _ _ => True)) as H'.
  { apply runs_ok in H' as (s' & [] & H' & _). eauto. }
  subst m. cbn [exec]. unfold signed. rewrite D. unfold lock. apply runs_bind, runs_gets.
  assert (HF : (v =? FLEXIBLE) && v_ended (st_vaults s) = false).
  { destruct (Z.eqb_spec v FLEXIBLE); [|done]. by apply O3. }
  rewrite HF. apply runs_bind, runs_gets. rewrite (proj2 (Z.eqb_neq _ _) O1), (proj2 (Z.eqb_neq _ _) O2). cbn [orb].
  rewrite D. rewrite (proj2 (Z.ltb_ge _ _)) by lia.
  assert (HE : vault_exists v = true) by (destruct Hv as [-> | ->]; done). rewrite HE. cbn [negb].
  apply runs_bind, runs_gets. apply runs_bind, runs_gets. unfold positions in Hnone. rewrite bool_decide_false by (rewrite Hnone; by intros [? ?]).
  apply runs_bind, runs_gets. rewrite (proj2 (Z.ltb_ge _ _)) by lia. apply runs_bind. unfold new_coins. rewrite (proj2 (Z.ltb_ge _ _)) by lia. apply runs_ret.
  apply runs_bind. rewrite (posacct c g (AUser b)) by (apply Hc || done). eapply runs_of_ok.
  { apply send_run; [done|done|lia|lia|]. apply in_range_fits; [lia|lia|done]. }
  apply runs_bind. unfold get_index. apply runs_gets. rewrite index_send. apply runs_bind. eapply runs_lift.
  { apply principal_down_run; [lia|]. destruct F1. clear -tf_scaled Hx H Hidx. unfold int_range, unit_index in *. change (10^12) with e12 in *. unfold e12 in *. lia. }
  apply runs_bind. unfold set_position. apply runs_modify. set (s1 := send_result _ _ _ _). set (s2 := set st_vaults _ s1).
  assert (E1 : v_total_flex (st_vaults s2) = v_total_flex (st_vaults s)) by done.
  assert (E2 : forall v, vault_principal s2 v = vault_principal s v).
  { done. }
  rewrite (down_floor x) by lia. set (f := floor_div _ _) in *.
  assert (HT : vault_total s v = vault_principal s v).
  { unfold vault_total, vault_principal. destruct Hv as [-> | ->]; done. }
  assert (Fin : forall s3, vault_principal s3 v = vault_principal s v ->
    runs (n <- gets (fun s => length (positions_of s (AUser b) v));; whenb (Nat.eqb n 1) (increment_vault_users v);;; increment_vault_principal v f) s3 (fun _ _ => True)).
  { intros s3 E3. apply runs_bind, runs_gets, runs_bind.
    assert (G : forall s4, vault_principal s4 v = vault_principal s v -> runs (increment_vault_principal v f) s4 (fun _ _ => True)).
    { intros s4 E4. unfold increment_vault_principal. apply runs_bind, runs_gets, runs_bind. eapply runs_lift.
      { apply int_chk_run. rewrite E4, <- HT. done. }
      unfold set_vault_principal. by apply runs_modify. }
    unfold whenb. destruct (Nat.eqb _ _).
    - unfold increment_vault_users. apply runs_modify. apply G. rewrite <- E3. unfold vault_principal. cbn. by destruct Hv as [-> | ->].
    - apply runs_ret. by apply G. }
  apply runs_bind. destruct (v =? FLEXIBLE).
  - apply runs_bind, runs_gets. apply runs_bind. eapply runs_lift; [apply int_chk_run; rewrite E1; exact F2|].
    apply runs_modify. apply Fin. rewrite <- E2. done.
  - apply runs_ret. by apply Fin.
Qed.

(** * Unlock *)
Definition amt_at (m : gmap (addr * Z * Z) position) (k : addr * Z * Z) : Z :=
  match m !! k with Some p => pos_amount p | None => 0 end.
Definition in_map (m : gmap (addr * Z * Z) position) (a : addr) (v : Z) (l : list position) : Prop :=
  NoDup (pos_time <$> l) /\ forall p, p ∈ l -> m !! (a, v, pos_time p) = Some p /\ 0 < pos_amount p.
Lemma amt_at_upos m a v p part k : m !! (a, v, pos_time p) = Some p -> 0 < part <= pos_amount p ->
  amt_at (upos_map a v p part m) k = amt_at m k - ind (k = (a, v, pos_time p)) part.
Proof.
  intros H Hp. unfold amt_at, upos_map, ind. destruct (decide (k = (a, v, pos_time p))) as [->|Hk].
  - rewrite H. destruct (Z.leb_spec (pos_amount p) part).
    + rewrite lookup_delete. lia.
    + rewrite lookup_insert. unfold cut. cbn. lia.
  - destruct (Z.leb_spec (pos_amount p) part); [rewrite lookup_delete_ne by done|rewrite lookup_insert_ne by done]; lia.
Qed.
Lemma in_map_tail m a v p l part : in_map m a v (p :: l) -> in_map (upos_map a v p part m) a v l.
Proof.
  intros [Hn Hl]. rewrite fmap_cons, NoDup_cons in Hn. destruct Hn as [Hn1 Hn2]. split; [done|]. intros q Hq.
  destruct (Hl q) as [Hm Ha]; [by right|]. split; [|done].
  assert (pos_time q <> pos_time p). { intros E. apply Hn1. rewrite <- E. by apply elem_of_list_fmap_1. }
  unfold upos_map. destruct (_ <=? _); [rewrite lookup_delete_ne by congruence|rewrite lookup_insert_ne by congruence]; done.
Qed.
Lemma in_map_positions s a v : pos_wf s -> in_map (v_positions (st_vaults s)) a v (positions_of s a v).
Proof.
  intros Hw. assert (T : forall tp, tp ∈ position_entries s a v -> pos_time tp.2 = tp.1).
  { intros [t p] H. apply elem_entries in H. by apply Hw in H as (_ & ? & _). }
  split.
  - unfold positions_of. rewrite <- list_fmap_compose. erewrite (list_fmap_ext _ fst); [apply entries_nodup|].
    intros i tp H. apply T. by eapply elem_of_list_lookup_2.
  - intros p H. unfold positions_of in H. apply elem_of_list_fmap in H as ([t q] & -> & H). cbn.
    pose proof (T _ H) as E. cbn in E. rewrite E. apply elem_entries in H. split; [done|]. by apply Hw in H as (? & _).
Qed.

(** Balances after one position was reduced. *)
Record flex_paid (c : config) (a : addr) (t part rew y : Z) (s s' : state) : Prop := {
  fp_rew : 0 <= rew;
  fp_y : 0 <= y;
  fp_bal : forall x, bal s' x = bal s x + ind (x = a) (part + rew + y) - ind (x = FlexibleA) rew - ind (x = YieldA) y
      - ind (x = vault_account c FLEXIBLE a t) part
}.
Lemma bal_pay' s a y x : 0 <= y -> bal (pay s a y) x = bal s x + ind (x = a) y - ind (x = YieldA) y.
Proof.
  intros H. unfold pay. destruct (Z.ltb_spec 0 y).
  - rewrite bal_send. unfold ind. repeat case_decide; lia.
  - unfold ind. repeat case_decide; lia.
Qed.
Lemma bal_xfer s f t y x : 0 <= y -> bal (xfer s f t y) x = bal s x + ind (x = t) y - ind (x = f) y.
Proof.
  intros H. unfold xfer. destruct (Z.ltb_spec 0 y).
  - rewrite bal_send. unfold ind. repeat case_decide; lia.
  - unfold ind. repeat case_decide; lia.
Qed.
Lemma unl1_flex c g b p part s s' : codec_ok c -> c_dec c g = Some (AUser b) -> unl1 g (AUser b) FLEXIBLE p part s s' ->
  exists rew y, flex_paid c (AUser b) (pos_time p) part rew y s s' /\
    (0 < rew -> rew = rsum (current_index s) (down part (pos_index p)) (pos_index p) (v_rewards (st_vaults s))).
Proof.
  intros Hc Hd H. inversion H as [Hn|s2 rew y _ Hrw Hy Hy1 Hp]; [done|]. subst s'. unfold pacct in *.
  rewrite (posacct c g (AUser b)) in * by done. set (h := vault_account c FLEXIBLE (AUser b) (pos_time p)) in *.
  destruct (flex_account_not c (AUser b) (pos_time p)) as (N1 & N2 & N3 & N4 & N5 & _ & N6 & _). fold h in N1, N2, N3, N4, N5, N6.
  assert (Hy0 : 0 <= y) by (subst y; apply yield_of_nonneg).
  assert (HB : 0 <= rew /\ forall x, bal s2 x = bal s x + ind (x = AUser b) rew - ind (x = FlexibleA) rew).
  { inversion Hrw as [Hz|tot Hp1 Ht Ht0 Ht1]; subst.
    - split; [lia|]. intros x. unfold ind. change (bal (sub_flex s (down part (pos_index p))) x) with (bal s x). repeat case_decide; lia.
    - split; [done|]. intros x. unfold rewarded. rewrite bal_xfer by done. change (v_rewards _) with (v_rewards (st_vaults s)).
      change (bal (set_rewards _ _) x) with (bal s x). change (current_index (sub_flex s _)) with (current_index s). done. }
  destruct HB as [Hr0 HB]. exists rew, y. split.
  - constructor; [done|done|]. intros x. change (bal (upos ?z _ _ _ _ _) x) with (bal z x). rewrite bal_send, bal_pay' by done.
    change (bal (add_dist s2 rew) x) with (bal s2 x). rewrite HB. fold h. unfold ind.
    destruct (decide (x = AUser b)), (decide (x = FlexibleA)), (decide (x = YieldA)), (decide (x = h)); try congruence; lia.
  - intros Hpos. inversion Hrw as [Hz|tot Hp1 Ht Ht0 Ht1]; subst; [lia|done].
Qed.
Lemma unl1_staked g a p part s s' : unl1 g a STAKED p part s s' ->
  part <= bal s StakedA /\ forall x, bal s' x = bal s x - ind (x = StakedA) part + ind (x = a) part.
Proof.
  intros H. inversion H as [Hn Hp|s2 rew y Hf]; [|done]. subst s'. split; [exact Hp|]. intros x.
  change (bal (upos ?z _ _ _ _ _) x) with (bal z x). rewrite bal_send. done.
Qed.
(** The account of every position follows its amount. *)
Lemma unls_flex c g b l : forall rem s rem' d s', codec_ok c -> c_dec c g = Some (AUser b) ->
  in_map (v_positions (st_vaults s)) (AUser b) FLEXIBLE l -> 0 <= rem ->
  unls g (AUser b) FLEXIBLE l rem s rem' d s' ->
  exists R Y, 0 <= R /\ 0 <= Y /\ 0 <= rem' <= rem /\
    bal s' (AUser b) = bal s (AUser b) + (rem - rem') + R + Y /\ bal s' FlexibleA = bal s FlexibleA - R /\ bal s' YieldA = bal s YieldA - Y /\
    (forall u t, bal s' (vault_account c FLEXIBLE u t) = bal s (vault_account c FLEXIBLE u t)
       - (amt_at (v_positions (st_vaults s)) (u, FLEXIBLE, t) - amt_at (v_positions (st_vaults s')) (u, FLEXIBLE, t))) /\
    (forall x, x <> AUser b -> x <> FlexibleA -> x <> YieldA -> (forall t, x <> vault_account c FLEXIBLE (AUser b) t) -> bal s' x = bal s x) /\
    (forall k, k.1 <> (AUser b, FLEXIBLE) -> amt_at (v_positions (st_vaults s')) k = amt_at (v_positions (st_vaults s)) k).
Proof.
  induction l as [|p l IH]; intros rem s rem' d s' Hc Hd Hm Hrem H.
  - inversion H; subst. exists 0, 0. repeat split; intros; try lia.
  - inversion H as [|?|? ? ? ? s1 ? ? d' Hne H1 H2]; subst.
    + exists 0, 0. repeat split; intros; try lia.
    + destruct (proj2 Hm p) as [Hp Hpos]; [by left|].
      pose proof (part_pos p rem Hpos Hrem Hne) as [P1 P2]. set (z := part_of p rem) in *.
      destruct (unl1_frame _ _ _ _ _ _ _ H1) as (Em & _).
      destruct (unl1_flex _ _ _ _ _ _ _ Hc Hd H1) as (rew & y & [W1 W2 W3] & _).
      apply in_map_tail with (part := z) in Hm. rewrite <- Em in Hm.
      assert (Hz0 : 0 <= rem - z) by lia. destruct (IH _ _ _ _ _ Hc Hd Hm Hz0 H2) as (R & Y & I1 & I2 & I3 & I4 & I5 & I6 & I7 & I8 & I9).
      destruct (flex_account_not c (AUser b) (pos_time p)) as (N1 & N2 & N3 & N4 & N5 & _ & N6 & _).
      exists (rew + R), (y + Y). split; [lia|]. split; [lia|]. split; [lia|].
      split. { rewrite I4, W3. unfold ind. rewrite decide_True, !decide_False by done. lia. }
      split. { rewrite I5, W3. unfold ind. rewrite (decide_False (P := FlexibleA = AUser b)), (decide_True (P := FlexibleA = FlexibleA)), !decide_False by done. lia. }
      split. { rewrite I6, W3. unfold ind. rewrite (decide_False (P := YieldA = AUser b)), (decide_False (P := YieldA = FlexibleA)), decide_True, decide_False by done. lia. }
      split.
      { intros u t. rewrite I7, W3, Em, amt_at_upos by (done || lia). destruct (flex_account_not c u t) as (M1 & M2 & M3 & M4 & M5 & _ & M6 & _).
        unfold ind. rewrite (decide_False (P := _ = AUser b)), (decide_False (P := _ = FlexibleA)), (decide_False (P := _ = YieldA)) by done.
        destruct (decide (vault_account c FLEXIBLE u t = vault_account c FLEXIBLE (AUser b) (pos_time p))) as [E|E].
        - apply account_private in E as [-> ->]; [|done]. rewrite decide_True by done. lia.
        - rewrite decide_False by congruence. lia. }
      split.
      { intros x X1 X2 X3 X4. rewrite I8, W3 by done. unfold ind. rewrite !decide_False by done. lia. }
      intros k Hk. rewrite I9, Em, amt_at_upos by (done || lia). unfold ind. rewrite decide_False; [lia|]. intros ->. done.
Qed.
Lemma unls_staked g a l : forall rem s rem' d s',
  in_map (v_positions (st_vaults s)) a STAKED l -> 0 <= rem -> unls g a STAKED l rem s rem' d s' ->
  0 <= rem' <= rem /\ (forall x, bal s' x = bal s x - ind (x = StakedA) (rem - rem') + ind (x = a) (rem - rem')).
Proof.
  induction l as [|p l IH]; intros rem s rem' d s' Hm Hrem H.
  - inversion H; subst. split; [lia|]. intros x. unfold ind. repeat case_decide; lia.
  - inversion H as [|?|? ? ? ? s1 ? ? d' Hne H1 H2]; subst.
    + split; [lia|]. intros x. unfold ind. repeat case_decide; lia.
    + destruct (proj2 Hm p) as [Hp Hpos]; [by left|].
      pose proof (part_pos p rem Hpos Hrem Hne) as [P1 P2]. set (z := part_of p rem) in *.
      destruct (unl1_frame _ _ _ _ _ _ _ H1) as (Em & _). destruct (unl1_staked _ _ _ _ _ _ H1) as [_ W].
      apply in_map_tail with (part := z) in Hm. rewrite <- Em in Hm.
      assert (Hz0 : 0 <= rem - z) by lia. destruct (IH _ _ _ _ _ Hm Hz0 H2) as [I1 I2]. split; [lia|]. intros x. rewrite I2, W. unfold ind. repeat case_decide; lia.
Qed.

(** Oldest first. *)
Lemma drain_oldest l : forall rem, StronglySorted zkey_le l -> NoDup l.*1 -> Forall (fun tp => 0 < pos_amount tp.2) l ->
  0 < rem <= list_sum (fun tp => pos_amount tp.2) l ->
  exists t0 p, (t0, p) ∈ l /\ (forall t q, (t, q) ∈ drain rem l -> t0 <= t) /\
    (forall t q, t0 < t -> (t, q) ∈ drain rem l <-> (t, q) ∈ l) /\
    ((forall q, ~ (t0, q) ∈ drain rem l) \/ exists z, 0 < z < pos_amount p /\ (t0, cut p z) ∈ drain rem l).
Proof.
  induction l as [|[t p] l IH]; intros rem Hs Hn Hp Hr; [cbn in Hr; lia|].
  inversion Hs as [|? ? Hs' Hall]; subst. rewrite fmap_cons, NoDup_cons in Hn. destruct Hn as [Hn1 Hn2].
  inversion Hp as [|? ? Hp1 Hp']; subst. cbn [list_sum foldr snd] in Hr, Hp1. fold (list_sum (fun tp : Z * position => pos_amount tp.2) l) in Hr.
  assert (Hge : forall u q, (u, q) ∈ l -> t <= u).
  { intros u q H. rewrite Forall_forall in Hall. exact (Hall _ H). }
  assert (Hnt : forall q, ~ (t, q) ∈ l).
  { intros q H. apply Hn1. apply elem_of_list_fmap. by exists (t, q). }
  cbn [drain]. rewrite (proj2 (Z.leb_gt _ _)) by lia. destruct (Z.ltb_spec rem (pos_amount p)).
  - exists t, p. split; [by left|]. split.
    { intros u q H'. apply elem_of_cons in H' as [[= -> ->]|H']; [lia|eauto]. }
    split.
    { intros u q Hu. rewrite !elem_of_cons. split; intros [[= ? ?]|?]; subst; try lia; auto. }
    right. exists rem. split; [lia|]. by left.
  - destruct (decide (rem = pos_amount p)) as [->|Hne].
    + rewrite Z.sub_diag, drain_zero. exists t, p. split; [by left|]. split; [intros; eauto|]. split.
      { intros u q Hu. rewrite elem_of_cons. split; [auto|]. intros [[= ? ?]|?]; subst; [lia|done]. }
      left. done.
    + destruct (IH (rem - pos_amount p) Hs' Hn2 Hp' ltac:(lia)) as (t0 & p0 & E & A & B & C).
      exists t0, p0. split; [by right|]. split; [done|]. split; [|done].
      intros u q Hu. rewrite B, elem_of_cons by done. split; [auto|]. intros [[= ? ?]|?]; subst; [|done].
      apply Hge in E. lia.
Qed.
Lemma position_sum_fsum P f s : position_sum P f s = fsum (fun k p => if P k then f p else 0) (v_positions (st_vaults s)).
Proof. done. Qed.
Lemma stake_psum s a v : stake s a v = psum pos_amount a v (v_positions (st_vaults s)).
Proof. unfold stake. rewrite position_sum_fsum. unfold psum. apply fsum_ext. intros k p _. case_bool_decide; by case_decide. Qed.
Lemma stake_list s a v : list_sum pos_amount (positions_of s a v) = stake s a v.
Proof. by rewrite positions_sum, stake_psum. Qed.
Lemma stake_entries s a v : list_sum (fun tp => pos_amount tp.2) (entries_of (v_positions (st_vaults s)) a v) = stake s a v.
Proof. rewrite <- stake_list, positions_entries, list_sum_fmap. done. Qed.

(** * What an unlock does to the positions *)
Lemma unlock_oldest s s' a v x : pos_wf s -> 0 < x <= stake s a v ->
  v_positions (st_vaults s') = take_pos a v (positions_of s a v) x (v_positions (st_vaults s)) ->
  oldest_first s s' a v /\ stake s' a v = stake s a v - x /\
  forall k, k.1 <> (a, v) -> positions s' !! k = positions s !! k.
Proof.
  intros Hw Hx E. apply pos_wf_pmap in Hw as Hm. rewrite positions_entries in E.
  set (m := v_positions (st_vaults s)) in *. set (l := entries_of m a v) in *.
  assert (Hp : Forall (fun tp : Z * position => 0 < pos_amount tp.2) l).
  { apply Forall_forall. intros [t p] H. apply elem_entries_of in H. by apply Hm in H as [_ ?]. }
  assert (Hl : forall t q, (t, q) ∈ drain x l <-> v_positions (st_vaults s') !! (a, v, t) = Some q).
  { intros t q. rewrite <- elem_entries_of, E. unfold l. rewrite take_pos_entries; [done|done|lia]. }
  rewrite <- stake_entries in Hx. fold m l in Hx.
  split; [|split].
  - destruct (drain_oldest l x (entries_of_sorted _ _ _) (entries_of_nodup _ _ _) Hp Hx) as (t0 & p & Hin & A & B & C).
    exists t0. unfold positions. split.
    { intros t Ht. destruct (_ !! _) as [q|] eqn:Eq; [|done]. apply Hl, A in Eq. lia. }
    split.
    { intros t Ht. apply option_eq. intros q. rewrite <- Hl, (B t q Ht). apply elem_entries_of. }
    exists p. split; [by apply elem_entries_of|]. destruct C as [C|(z & Hz & C)].
    + left. destruct (_ !! _) as [q|] eqn:Eq; [|done]. apply Hl in Eq. by apply C in Eq.
    + right. exists z. split; [done|]. apply Hl in C. rewrite C. unfold cut. rewrite down_floor; [done|lia|].
      apply elem_entries_of in Hin. apply Hw in Hin as (_ & _ & ? & _). lia.
  - rewrite <- !stake_entries. fold m. rewrite E. unfold l. rewrite take_pos_entries; [|done|lia]. fold l. apply drain_sum; [lia|done].
  - intros k Hk. unfold positions. rewrite E. by apply take_pos_others.
Qed.

Lemma stakes_same c o s s' : chain_ok c -> winv c s -> lock_op o = false -> exec c o s = Ok s' tt ->
  v_positions (st_vaults s') = v_positions (st_vaults s) /\ v_total_flex (st_vaults s') = v_total_flex (st_vaults s) /\
  v_stats (st_vaults s') = v_stats (st_vaults s).
Proof.
  intros Hc [Hw Hp] Ho H. destruct (plain_op o) eqn:Epl.
  { apply plain_frame in H as [Hv _ _ _ _ _ _ _]; auto. by rewrite Hv. }
  destruct (administrative o) eqn:Ead.
  { apply admin_inv in H; [|done]. destruct o; try discriminate; cbn [admin_result] in H; destruct_and?; subst; done. }
  destruct o; try discriminate. apply deliver_quiet in H as [_ Hv _ _ _]; auto. unfold vrest in Hv. by injection Hv.
Qed.

(** Accounts holding stakes and rewards are only debited by unlocks. *)
Definition held (c : config) (a : addr) : Prop :=
  a = StakedA \/ a = FlexibleA \/ exists u t, a = vault_account c FLEXIBLE u t.
Lemma held_not c a : held c a -> a <> ModuleA /\ a <> YieldA /\ a <> WarpA /\ external a = false /\
  (forall b, a <> AUser b) /\ forall p ch, a <> AEscrow p ch.
Proof.
  intros [->|[->|(u & t & ->)]]; [repeat split; discriminate..|].
  destruct (flex_account_not c u t) as (? & ? & ? & ? & ? & ? & ? & ?). repeat split; auto.
Qed.
Lemma held_label c o l s a : lock_op o = false -> allowed c o l -> cpre l s -> held c a -> bal s a <= bal (capply l s) a.
Proof.
  intros Ho Ha Hp Hh. apply held_not in Hh as (N1 & N2 & N3 & N4 & N5 & N6).
  assert (HS : forall s f t z, f <> a -> 0 <= z -> bal s a <= bal (send_result s f t z) a).
  { intros s0 f t z Hf Hz. rewrite bal_send. unfold ind. repeat case_decide; subst; try lia; done. }
  assert (HSS : forall s f z, 0 <= z -> bal s a <= bal (send_result s f f z) a).
  { intros s0 f z Hz. rewrite bal_send. unfold ind. repeat case_decide; subst; lia. }
  destruct l as [f t amt|h y|y yp|t y|i n d|t amt|f amt|n]; cbn [cpre capply] in *.
  - assert (Hf : f = t \/ f <> a).
    { destruct o; cbn in Ho, Ha; try done; naive_solver congruence. }
    destruct Hf as [->|Hf]; [apply HSS|apply HS]; (done || lia).
  - apply HS; [by intros <-|lia].
  - change (bal (shiftp ?z _) a) with (bal z a). apply HS; [by intros <-|lia].
  - rewrite !bal_send. unfold ind. destruct (decide (a = YieldA)); [done|]. destruct Hp as [? _]. repeat case_decide; lia.
  - rewrite bal_accrued by naive_solver. unfold ind. destruct Hp as (? & ? & ? & ?). rewrite ?decide_False by done. lia.
  - rewrite bal_issued by naive_solver lia. unfold ind. repeat case_decide; lia.
  - assert (Hf : exists b, f = AUser b) by (destruct o; cbn in Ho, Ha; try done; naive_solver congruence).
    destruct Hf as [b ->]. rewrite bal_burned by (done || lia). unfold ind. rewrite decide_False by done. lia.
  - apply Z.le_refl.
Qed.
Lemma held_op c o s s' a : chain_ok c -> winv c s -> lock_op o = false -> exec c o s = Ok s' tt -> held c a ->
  bal s a <= bal s' a.
Proof.
  intros Hc Hw Ho H Hh. destruct (op_trace _ _ _ _ Hc Hw H) as (ls & Ht & Ha).
  revert Ht Ha. apply (ctrace_rel (fun s s' => bal s a <= bal s' a)).
  - intros s0 s1 E. rewrite (core_bal _ _ a E). lia.
  - intros; lia.
  - intros l s0 Hl Hp. by eapply held_label.
Qed.

(** * Sums over the positions along an unlock *)
Lemma fsum_upos f a v p part m : m !! (a, v, pos_time p) = Some p ->
  fsum f (upos_map a v p part m) = fsum f m - f (a, v, pos_time p) p
    + (if pos_amount p <=? part then 0 else f (a, v, pos_time p) (cut p part)).
Proof.
  intros H. unfold upos_map. destruct (_ <=? _).
  - rewrite (fsum_delete f m _ _ H). lia.
  - rewrite (fsum_insert_old f m _ _ _ H). lia.
Qed.
(** Induction over the positions consumed. *)
Lemma unls_rel (R : state -> Z -> Z -> state -> Prop) g a v :
  (forall s, R s 0 0 s) ->
  (forall s x d s1 y e s2, 0 <= x -> 0 <= y -> R s x d s1 -> R s1 y e s2 -> R s (x + y) (d + e) s2) ->
  (forall p part s s', v_positions (st_vaults s) !! (a, v, pos_time p) = Some p -> 0 < part <= pos_amount p ->
    v_positions (st_vaults s') = upos_map a v p part (v_positions (st_vaults s)) ->
    unl1 g a v p part s s' -> R s part (down part (pos_index p)) s') ->
  forall l rem s rem' d s', in_map (v_positions (st_vaults s)) a v l -> 0 <= rem ->
    unls g a v l rem s rem' d s' -> 0 <= rem' <= rem /\ R s (rem - rem') d s'.
Proof.
  intros R0 R2 R1. induction l as [|p l IH]; intros rem s rem' d s' Hm Hrem H.
  - inversion H; subst. split; [lia|]. by rewrite Z.sub_diag.
  - inversion H as [|?|? ? ? ? s1 ? ? d' Hne H1 H2]; subst.
    + split; [lia|]. rewrite Z.sub_diag. done.
    + destruct (proj2 Hm p) as [Hp Hpos]; [by left|].
      pose proof (part_pos p rem Hpos Hrem Hne) as [P1 P2]. set (z := part_of p rem) in *.
      destruct (unl1_frame _ _ _ _ _ _ _ H1) as (Em & _).
      apply in_map_tail with (part := z) in Hm. rewrite <- Em in Hm.
      assert (Hz0 : 0 <= rem - z) by lia. destruct (IH _ _ _ _ _ Hm Hz0 H2) as [I1 I2]. split; [lia|].
      replace (rem - rem') with (z + (rem - z - rem')) by lia. eapply R2; [lia|lia| |exact I2]. apply R1; auto. lia.
Qed.
Lemma unls_total g a v w l rem s rem' d s' : in_map (v_positions (st_vaults s)) a v l -> 0 <= rem ->
  unls g a v l rem s rem' d s' -> total_stake s' w = total_stake s w - (if v =? w then rem - rem' else 0).
Proof.
  intros Hm Hr H.
  apply (unls_rel (fun s x d s' => total_stake s' w = total_stake s w - (if v =? w then x else 0)) g a v) with (l := l) (d := d) in H as [_ H]; auto.
  - intros s0. destruct (v =? w); lia.
  - intros s0 x0 d0 s1 y0 e0 s2 _ _ -> ->. destruct (v =? w); lia.
  - intros p part s0 s1 Hp Hpart E _. unfold total_stake. rewrite !position_sum_fsum, E, fsum_upos by done. cbn [fst snd].
    destruct (v =? w); [|destruct (_ <=? _); lia]. destruct (Z.leb_spec (pos_amount p) part); [lia|]. cbn. lia.
Qed.

(** * Every stake is backed *)
Lemma amount_at_eq s k : amount_at s k = amt_at (v_positions (st_vaults s)) k.
Proof. done. Qed.
Definition backed (c : config) (s : state) : Prop :=
  total_stake s STAKED <= bal s StakedA /\ forall a t, amount_at s (a, FLEXIBLE, t) <= bal s (vault_account c FLEXIBLE a t).
Lemma backed_fresh c s : fresh c s -> backed c s.
Proof.
  intros [Hb _ _ _ _ _ _ _ _ Hp _ _ _ _ _ _ _ _ _]. unfold backed, total_stake, amount_at. rewrite position_sum_fsum. unfold positions.
  rewrite Hp. unfold bal. rewrite Hb. split; [done|]. intros a t. done.
Qed.
Theorem unlock_effect c s s' g v amount : chain_ok c -> winv c s -> exec c (OpUnlock g v amount) s = Ok s' tt ->
  exists b x, c_dec c g = Some (AUser b) /\ amount = Some x /\ a_vault v /\ unlock_open s v /\
  let a := AUser b in
  0 < x <= stake s a v /\ (c_min_unlock c <= x \/ x = stake s a v) /\
  stake s' a v = stake s a v - x /\ oldest_first s s' a v /\
  (forall k, k.1 <> (a, v) -> positions s' !! k = positions s !! k) /\
  (v = STAKED -> forall y, bal s' y = bal s y - on y StakedA x + on y a x) /\
  (v = FLEXIBLE -> exists R Y, 0 <= R /\ 0 <= Y /\
     bal s' a = bal s a + x + R + Y /\ bal s' FlexibleA = bal s FlexibleA - R /\ bal s' YieldA = bal s YieldA - Y /\
     (forall u t, bal s' (vault_account c FLEXIBLE u t) = bal s (vault_account c FLEXIBLE u t)
         - (amount_at s (u, FLEXIBLE, t) - amount_at s' (u, FLEXIBLE, t))) /\
     (forall y, y <> a -> y <> FlexibleA -> y <> YieldA -> (forall t, y <> vault_account c FLEXIBLE a t) -> bal s' y = bal s y)) /\
  (forall w, total_stake s' w = total_stake s w - (if v =? w then x else 0)) /\
  supply s' = supply s /\ current_index s' = current_index s /\ st_portal s' = st_portal s /\ st_world s' = st_world s.
Proof.
  intros Hc Hw E. pose proof (supply_op_same _ _ _ _ Hc Hw E eq_refl) as HS. pose proof (yield_stat_op _ _ _ _ Hc Hw E I) as [_ HI]. destruct Hw as [Hw Hp].
  destruct (unlock_inv' _ _ _ _ _ _ Hp E) as (b & x & d & s1 & D & -> & H1 & H2 & H3 & H4 & H5 & H6 & Hu & ->).
  rewrite stake_list in H5, H6. pose proof (in_map_positions s (AUser b) v Hp) as Hm.
  assert (Hx : 0 <= x) by lia.
  destruct (unls_frame _ _ _ _ _ _ _ _ _ Hu) as (Em & _ & _ & _ & _ & _ & Hpo & Hwo & _).
  exists b, x. split; [done|]. split; [done|]. split; [done|]. split; [split; auto|]. cbv zeta.
  split; [done|]. split; [done|].
  destruct (unlock_oldest s (unlock_result s1 (AUser b) v d) (AUser b) v x Hp H5 Em) as (O1 & O2 & O3).
  split; [done|]. split; [done|]. split; [done|].
  split.
  { intros -> y. destruct (unls_staked _ _ _ _ _ _ _ _ Hm Hx Hu) as [_ B]. transitivity (bal s1 y); [done|].
    rewrite B, Z.sub_0_r. done. }
  split.
  { intros ->. destruct (unls_flex _ _ _ _ _ _ _ _ _ (ok_codec _ Hc) D Hm Hx Hu) as (R & Y & ? & ? & _ & B1 & B2 & B3 & B4 & B5 & _).
    exists R, Y. rewrite Z.sub_0_r in B1. do 5 (split; [done|]). split; [exact B4|exact B5]. }
  split.
  { intros w. pose proof (unls_total _ _ _ w _ _ _ _ _ _ Hm Hx Hu) as HT. rewrite Z.sub_0_r in HT. exact HT. }
  done.
Qed.
Lemma backed_step c o s s' : chain_ok c -> winv c s -> exec c o s = Ok s' tt -> backed c s -> backed c s'.
Proof.
  intros Hc Hw E [B1 B2]. destruct (lock_op o) eqn:Ho.
  - destruct o; try discriminate.
    + destruct (lock_inv' _ _ _ _ _ _ Hc E) as (b & x & D & -> & H1 & H2 & H3 & H4 & H5 & H6 & Es).
      rewrite (posacct c signer (AUser b)) in Es by (apply Hc || done). set (t0 := x_now (st_world s)) in *.
      set (h := vault_account c vault (AUser b) t0) in *. pose proof (ok_min_lock _ Hc).
      assert (HB : forall y, bal s' y = bal s y - ind (y = AUser b) x + ind (y = h) x).
      { intros y. subst s'. transitivity (bal (send_result s (AUser b) h x) y); [unfold bal; by rewrite lock_bank|]. by rewrite bal_send. }
      assert (HP : v_positions (st_vaults s') = <[(AUser b, vault, t0) := mk_position (down x (current_index s)) (current_index s) x t0]> (v_positions (st_vaults s))).
      { subst s'. apply lock_positions. }
      split.
      * unfold total_stake in *. rewrite position_sum_fsum in *. rewrite HP, fsum_insert_fresh by done. cbn [fst snd pos_amount].
        rewrite HB. unfold ind. rewrite (decide_False (P := StakedA = AUser b)) by done. destruct H5 as [-> | ->]; cbn.
        -- rewrite decide_True by done. lia.
        -- case_decide; lia.
      * intros a t. specialize (B2 a t). rewrite amount_at_eq in *. rewrite HP, HB.
        destruct (flex_account_not c a t) as (N1 & N2 & N3 & N4 & N5 & _ & N6 & _). unfold ind.
        rewrite (decide_False (P := _ = AUser b)) by done. unfold amt_at in *.
        destruct (decide ((a, FLEXIBLE, t) = (AUser b, vault, t0))) as [Heq|Hne]; [simplify_eq|].
        -- rewrite lookup_insert. rewrite H6 in B2. cbn [pos_amount]. rewrite decide_True by done. lia.
        -- rewrite lookup_insert_ne by congruence. case_decide; lia.
    + destruct (unlock_effect _ _ _ _ _ _ Hc Hw E) as (b & x & D & -> & V & _ & Hx & _ & _ & _ & Ho' & HS & HF & HT & _).
      split.
      * rewrite HT. destruct V as [-> | ->].
        -- rewrite HS by done. rewrite Z.eqb_refl. unfold on. rewrite decide_True, decide_False by done. lia.
        -- destruct (HF eq_refl) as (R & Y & _ & _ & _ & _ & _ & _ & HO). rewrite HO by done. cbn. lia.
      * intros a t. destruct V as [-> | ->].
        -- rewrite HS by done. destruct (flex_account_not c a t) as (N1 & N2 & N3 & N4 & N5 & _ & N6 & _). unfold on.
           rewrite !decide_False by done. specialize (B2 a t). unfold amount_at in *. rewrite Ho' by (unfold FLEXIBLE, STAKED; intros [=]). lia.
        -- destruct (HF eq_refl) as (R & Y & _ & _ & _ & _ & _ & HA & _). rewrite HA. specialize (B2 a t). lia.
  - destruct (stakes_same _ _ _ _ Hc Hw Ho E) as (Ep & _ & _).
    assert (HH : forall a, held c a -> bal s a <= bal s' a) by (intros; by eapply held_op). split.
    + unfold total_stake in *. rewrite position_sum_fsum in *. rewrite Ep. specialize (HH StakedA (or_introl eq_refl)). lia.
    + intros a t. specialize (B2 a t). rewrite amount_at_eq in *. rewrite Ep. specialize (HH (vault_account c FLEXIBLE a t)).
      assert (held c (vault_account c FLEXIBLE a t)) by (right; right; eauto). apply HH in H. lia.
Qed.
Theorem backed_reachable c s : chain_ok c -> reachable c s -> backed c s.
Proof.
  intros Hc Hr. apply (reachable_inv (backed c) c s Hc Hr).
  - apply backed_fresh.
  - intros; by eapply backed_step.
Qed.
Theorem stakes_are_backed c s : chain_ok c -> reachable c s -> stakes_backed c s.
Proof.
  intros Hc Hr. destruct (backed_reachable _ _ Hc Hr) as [B1 B2]. constructor; [done|]. intros a t p Hp.
  specialize (B2 a t). unfold amount_at in B2. by rewrite Hp in B2.
Qed.
