(** Withdrawals of staked positions succeed. *)
From Verif Require Export StatP.

Lemma list_sum_nonneg {A} (f : A -> Z) l : (forall q, q ∈ l -> 0 <= f q) -> 0 <= list_sum f l.
Proof.
  unfold list_sum. induction l as [|q l IH]; intros H; cbn; [lia|]. specialize (IH (fun q Hq => H q (elem_of_list_further _ _ _ Hq))).
  specialize (H q (elem_of_list_here _ _)). lia.
Qed.

(** * Staked positions can be withdrawn *)
Record loop_room (s : state) (a : addr) (S removed : Z) : Prop := {
  lr_user : Z.abs (prin s a) + S * (e12 + 1) < 2 ^ 256;
  lr_pool : Z.abs (prin s StakedA) + S * (e12 + 1) < 2 ^ 256;
  lr_bal : 0 <= bal s a /\ bal s a + S < 2 ^ 256;
  lr_funds : S <= bal s StakedA;
  lr_scale : 0 <= S /\ S * e12 + 2 ^ 63 < 2 ^ 256;
  lr_removed : 0 <= removed /\ removed + S * e12 < 2 ^ 256
}.
Lemma up_small x i : 0 <= x -> 0 < i -> 0 <= up x i <= x * e12 + 1.
Proof.
  intros Hx Hi. pose proof (up_bounds x i ltac:(lia) ltac:(lia)). assert (0 <= x * e12) by (unfold e12; lia). nia.
Qed.
Lemma down_small x i : 0 <= x -> 0 < i -> 0 <= down x i <= x * e12.
Proof.
  intros Hx Hi. rewrite down_div by lia. assert (0 <= x * e12) by (unfold e12; lia). split; [apply Z.div_pos; lia|].
  apply Z.div_le_upper_bound; [lia|]. nia.
Qed.
Local Ltac elia := unfold e12 in *; lia.
Lemma staked_loop c g b l : forall rem removed s, c_dec c g = Some (AUser b) -> 0 < current_index s < 2 ^ 63 ->
  NoDup (pos_time <$> l) ->
  (forall p, p ∈ l -> 0 < pos_amount p /\ 0 < pos_index p /\ rounded p <= pos_principal p /\ pos_principal p < 2 ^ 256) ->
  0 <= rem <= list_sum pos_amount l -> loop_room s (AUser b) (list_sum pos_amount l) removed ->
  runs (unlock_loop c g (AUser b) STAKED l rem removed) s (fun s' rr =>
    rr.1 = 0 /\ 0 <= rr.2 <= removed + list_sum pos_amount l * e12 /\ v_stats (st_vaults s') = v_stats (st_vaults s)).
Proof.
  induction l as [|p l IH]; intros rem removed s Hd Hi Hn Hl Hrem [R1 R2 R3 R4 R5 R6].
  - cbn [unlock_loop]. apply runs_ret. unfold list_sum in *. cbn [foldr fst snd] in *. split; [lia|]. split; [lia|done].
  - cbn [unlock_loop]. destruct (Hl p) as (A1 & A2 & A3 & A4); [by left|].
    assert (HS : 0 <= list_sum pos_amount l).
    { apply list_sum_nonneg. intros q Hq. destruct (Hl q) as [? _]; [by right|lia]. }
    change (list_sum pos_amount (p :: l)) with (pos_amount p + list_sum pos_amount l) in *. set (S := list_sum pos_amount l) in *.
    assert (HE : 0 < e12) by (unfold e12; lia).
    destruct (Z.eqb_spec rem 0) as [->|Hne].
    { apply runs_ret. cbn. split; [done|]. split; [elia|done]. }
    set (part := if rem <? pos_amount p then rem else pos_amount p).
    assert (Hpart : 0 < part <= rem /\ part <= pos_amount p /\ rem - part <= S).
    { unfold part. destruct (Z.ltb_spec rem (pos_amount p)); lia. }
    clearbody part. destruct (down_small part (pos_index p) ltac:(lia) A2) as [D1 D2].
    apply runs_bind. eapply runs_lift; [apply principal_down_run; [done|unfold int_range; rewrite Z.abs_eq by elia; elia]|].
    apply runs_bind. cbn [Z.eqb STAKED FLEXIBLE]. change (STAKED =? FLEXIBLE) with false. cbv iota. apply runs_ret.
    apply runs_bind. unfold new_coins. rewrite (proj2 (Z.ltb_ge _ _)) by lia. apply runs_ret.
    apply runs_bind. change (position_account g STAKED (pos_time p)) with StakedA.
    destruct (up_small part (current_index s) ltac:(lia) ltac:(lia)) as [U1 U2].
    eapply runs_of_ok.
    { apply send_run; [done|done|lia|lia|]. constructor; unfold int_range; try lia; try done.
      - rewrite Z.abs_eq by elia. elia.
      - elia.
      - elia. }
    set (s1 := send_result s StakedA (AUser b) part).
    assert (P1 : prin s1 (AUser b) = prin s (AUser b) + up part (current_index s)).
    { unfold s1. rewrite prin_send by done. unfold ind. rewrite decide_False, decide_True by done. lia. }
    assert (P2 : prin s1 StakedA = prin s StakedA - up part (current_index s)).
    { unfold s1. rewrite prin_send by done. unfold ind. rewrite decide_True, decide_False by done. lia. }
    assert (B1 : bal s1 (AUser b) = bal s (AUser b) + part).
    { unfold s1. rewrite bal_send. unfold ind. rewrite decide_False, decide_True by done. lia. }
    assert (B2 : bal s1 StakedA = bal s StakedA - part).
    { unfold s1. rewrite bal_send. unfold ind. rewrite decide_True, decide_False by done. lia. }
    assert (I1 : current_index s1 = current_index s) by apply index_send.
    assert (V1 : v_stats (st_vaults s1) = v_stats (st_vaults s)) by done. clearbody s1.
    apply runs_bind.
    enough (G : forall s2, st_bank s2 = st_bank s1 -> st_dollar s2 = st_dollar s1 -> v_stats (st_vaults s2) = v_stats (st_vaults s) ->
      runs (removed' <- lift (int_add removed (down part (pos_index p)));; remaining' <- lift (int_sub rem part);;
        unlock_loop c g (AUser b) STAKED l remaining' removed') s2 (fun s' rr =>
        rr.1 = 0 /\ 0 <= rr.2 <= removed + (pos_amount p + S) * e12 /\ v_stats (st_vaults s') = v_stats (st_vaults s))).
    { destruct (pos_amount p <=? part).
      - unfold remove_position. apply runs_modify. apply G; done.
      - unfold rounded in A3. pose proof (down_super (pos_amount p - part) part (pos_index p) ltac:(lia) ltac:(lia) A2) as H4.
        pose proof (down_nonneg' (pos_amount p - part) (pos_index p) ltac:(lia) A2).
        replace (pos_amount p - part + part) with (pos_amount p) in H4 by lia.
        apply runs_bind. eapply runs_lift; [apply int_chk_run; unfold int_range; lia|].
        apply runs_bind. eapply runs_lift; [apply int_chk_run; unfold int_range; elia|].
        unfold set_position. apply runs_modify. apply G; done. }
    intros s2 E1 E2 E3.
    assert (HP : forall a, prin s2 a = prin s1 a) by (intros; unfold prin; by rewrite E2).
    assert (HB : forall a, bal s2 a = bal s1 a) by (intros; unfold bal; by rewrite E1).
    assert (HI : current_index s2 = current_index s1) by (unfold current_index; by rewrite E2).
    apply runs_bind. eapply runs_lift; [apply int_chk_run; unfold int_range; elia|].
    apply runs_bind. eapply runs_lift; [apply int_chk_run; unfold int_range; elia|].
    eapply runs_mono.
    { apply IH; [done|lia| | | |].
      - rewrite fmap_cons, NoDup_cons in Hn. tauto.
      - intros q Hq. apply Hl. by right.
      - fold S. lia.
      - fold S. constructor; rewrite ?HP, ?HB, ?P1, ?P2, ?B1, ?B2; elia. }
    cbn. fold S. intros s' rr (Q1 & Q2 & Q3). split; [done|]. split; [elia|congruence].
Qed.
Lemma sum_amounts_run l : forall acc, 0 <= acc -> Forall (fun p => 0 < pos_amount p) l -> acc + list_sum pos_amount l < 2 ^ 256 ->
  sum_amounts l acc = POk (acc + list_sum pos_amount l).
Proof.
  induction l as [|p l IH]; intros acc H0 Hl Hb; [cbn; by rewrite Z.add_0_r|]. cbn [sum_amounts]. change (list_sum pos_amount (p :: l)) with (pos_amount p + list_sum pos_amount l) in *. inversion Hl as [|? ? Hp Hl']; subst.
  assert (0 <= list_sum pos_amount l). { apply list_sum_nonneg. intros q Hq. rewrite Forall_forall in Hl'. specialize (Hl' _ Hq). lia. }
  unfold int_add. rewrite int_chk_run by (unfold int_range; lia). cbn [pbind]. rewrite IH; [f_equal; lia|lia|done|lia].
Qed.
Lemma principal_le_total s k p : prin_ok (v_positions (st_vaults s)) -> v_positions (st_vaults s) !! k = Some p ->
  pos_principal p <= total_stake_principal s k.1.2.
Proof.
  intros Hok Hp. unfold total_stake_principal. rewrite position_sum_fsum.
  set (F := fun (k' : addr * Z * Z) (p : position) => if k'.1.2 =? k.1.2 then pos_principal p else 0).
  assert (F k p = pos_principal p) as <- by (unfold F; by rewrite Z.eqb_refl).
  apply fsum_elem_le; [|done]. unfold F. intros k' q Hq. destruct (_ =? _); [|lia]. destruct (Hok _ _ Hq) as (? & ? & ?).
  pose proof (down_nonneg' (pos_amount q) (pos_index q) ltac:(lia) ltac:(lia)). unfold rounded in *. lia.
Qed.
Lemma totals_reachable c s v : chain_ok c -> reachable c s -> exists k, totals_ok v k s.
Proof. intros Hc (s0 & ops & Hf & ->). eexists. by apply totals_run. Qed.
Lemma stake_le_total s a v : pos_wf s -> stake s a v <= total_stake s v.
Proof.
  intros Hw. unfold stake, total_stake. rewrite !position_sum_fsum. apply fsum_le. intros k p Hp. apply Hw in Hp as (? & _).
  case_bool_decide as E; [|destruct (_ =? _); lia]. rewrite E. cbn. rewrite Z.eqb_refl. lia.
Qed.
Theorem staked_withdrawal c s g b x : chain_ok c -> reachable c s -> c_dec c g = Some (AUser b) ->
  v_paused (st_vaults s) <> PAUSE_ALL -> v_paused (st_vaults s) <> PAUSE_UNLOCK ->
  0 < x <= stake s (AUser b) STAKED -> c_min_unlock c <= x \/ x = stake s (AUser b) STAKED ->
  withdrawal_in_range s (AUser b) ->
  exists s', exec c (OpUnlock g STAKED (Some x)) s = Ok s' tt.
Proof.
  intros Hc Hr D O1 O2 Hx Hmin [F1 F2 F3 F4 F5]. pose proof (winv_reachable _ _ Hc Hr) as [Hw Hp]. pose proof (wf_index _ _ Hw) as Hidx.
  destruct (totals_reachable c s STAKED Hc Hr) as (k & [T1 _ T3 _]). specialize (T3 STAKED (or_introl eq_refl)).
  destruct (backed_reachable c s Hc Hr) as [HB _]. pose proof (stake_le_total s (AUser b) STAKED Hp) as HST.
  pose proof (solid_reachable c s Hc Hr) as [_ Hb0]. specialize (Hb0 (AUser b)).
  set (m := exec c _). enough (runs m s (fun _ _ => True)) as H'.
  { apply runs_ok in H' as (s' & [] & H' & _). eauto. }
  subst m. cbn [exec]. unfold signed. rewrite D. unfold unlock. apply runs_bind, runs_gets. change (STAKED =? FLEXIBLE) with false. cbn [andb].
  apply runs_bind, runs_gets. rewrite (proj2 (Z.eqb_neq _ _) O1), (proj2 (Z.eqb_neq _ _) O2). cbn [orb].
  unfold unlock_internal. rewrite D. rewrite (proj2 (Z.ltb_lt _ _)) by lia. cbn [negb]. change (vault_exists STAKED) with true. cbn [negb].
  apply runs_bind, runs_gets. rewrite <- stake_list in *. set (l := positions_of s (AUser b) STAKED) in *.
  assert (Hpos : Forall (fun p => 0 < pos_amount p) l) by (by apply pos_wf_positive).
  assert (HS0 : 0 <= list_sum pos_amount l). { apply list_sum_nonneg. intros q Hq. rewrite Forall_forall in Hpos. specialize (Hpos _ Hq). lia. }
  set (S := list_sum pos_amount l) in *. change unit_index with e12 in F1. assert (HE : 1 <= e12) by (unfold e12; lia).
  assert (HSb : S < 2 ^ 200) by elia. assert (HSe : S * (e12 + 1) < 2 ^ 201) by (unfold e12 in *; lia).
  change (2 ^ 255) with (2 ^ 54 * 2 ^ 201) in *. change (2 ^ 200) with (2 ^ 200) in *.
  assert (C1 : 2 ^ 54 * 2 ^ 201 + 2 ^ 201 < 2 ^ 256) by done. assert (C2 : 2 ^ 201 = 2 * 2 ^ 200) by done. assert (C3 : 2 ^ 200 + 2 ^ 63 < 2 ^ 256) by done.
  assert (C4 : 0 < 2 ^ 200) by done.
  apply runs_bind. eapply runs_lift; [apply sum_amounts_run; [lia|done|fold S; lia]|]. fold S. rewrite Z.add_0_l.
  rewrite (proj2 (Z.ltb_ge _ _)) by lia.
  assert (HM : (x <? c_min_unlock c) && negb (S =? x) = false).
  { destruct Hmin as [H'|H']; [by rewrite (proj2 (Z.ltb_ge _ _))|]. rewrite H', Z.eqb_refl. by rewrite andb_false_r. }
  rewrite HM. apply runs_bind. eapply runs_mono.
  { apply staked_loop; [done|done| | |fold S; lia|].
    - apply (in_map_positions s (AUser b) STAKED Hp).
    - intros p Hin. pose proof (in_map_positions s (AUser b) STAKED Hp) as [_ HM'].
      destruct (HM' p Hin) as [Hpm _]. destruct (T1 _ _ Hpm) as (? & ? & ?). pose proof (principal_le_total _ _ _ T1 Hpm) as HPT. cbn [fst snd] in HPT.
      repeat (split; [done|]). lia.
    - fold S. constructor; try lia; elia. }
  fold S. intros s1 [r1 r2]. cbn [fst snd]. intros (-> & Q2 & Q3). rewrite Z.eqb_refl. cbn [negb].
  apply runs_bind, runs_gets. apply runs_bind.
  assert (HT0 : 0 <= vault_total s STAKED).
  { assert (0 <= total_stake_principal s STAKED); [|lia]. unfold total_stake_principal. rewrite position_sum_fsum. apply fsum_nonneg. intros k' q Hq.
    destruct (k'.1.2 =? STAKED); [|lia]. destruct (T1 _ _ Hq) as (? & ? & ?).
    pose proof (down_nonneg' (pos_amount q) (pos_index q) ltac:(lia) ltac:(lia)). unfold rounded in *. lia. }
  assert (G : forall s2, vs_staked_principal (v_stats (st_vaults s2)) = vault_total s STAKED -> runs (decrement_vault_principal STAKED r2) s2 (fun _ _ => True)).
  { intros s2 E2. unfold decrement_vault_principal. apply runs_bind, runs_gets. apply runs_bind. change (vault_principal s2 STAKED) with (vs_staked_principal (v_stats (st_vaults s2))). rewrite E2.
    eapply runs_lift; [apply int_chk_run; unfold int_range; elia|]. unfold set_vault_principal. by apply runs_modify. }
  unfold whenb. destruct (Nat.eqb _ _); [unfold decrement_vault_users; apply runs_modify|apply runs_ret]; apply G; cbn; by rewrite Q3.
Qed.

(** * What lock and unlock require, in any state *)
Lemma unlock_needs c g v amount s s' : exec c (OpUnlock g v amount) s = Ok s' tt ->
  exists a x, c_dec c g = Some a /\ amount = Some x /\ a_vault v /\ unlock_open s v /\ 0 < x <= stake s a v /\
    (c_min_unlock c <= x \/ x = stake s a v).
Proof.
  intros H. cbn [exec] in H. apply signed_ok in H as [H _]. unfold unlock, unlock_internal, gets, bind at 1 2 3 4 in H. cbn beta iota in H.
  destruct ((v =? FLEXIBLE) && v_ended (st_vaults s)) eqn:Ee; [discriminate|].
  destruct ((v_paused (st_vaults s) =? PAUSE_ALL) || (v_paused (st_vaults s) =? PAUSE_UNLOCK)) eqn:Ep; [discriminate|].
  destruct (c_dec c g) as [a|]; [|discriminate]. destruct amount as [x|]; [|discriminate].
  destruct (Z.ltb_spec 0 x); cbn [negb] in H; [|discriminate]. destruct (vault_exists v) eqn:Ev; cbn [negb] in H; [|discriminate].
  unfold lift in H. destruct (sum_amounts (positions_of s a v) 0) as [t| |] eqn:Et; [|discriminate..].
  apply sum_amounts_ok in Et. rewrite stake_list, Z.add_0_l in Et.
  destruct (Z.ltb_spec t x); [discriminate|].
  destruct ((x <? c_min_unlock c) && negb (t =? x)) eqn:Em; [discriminate|].
  exists a, x. split; [done|]. split; [done|]. split.
  { unfold vault_exists in Ev. apply orb_true_iff in Ev as [E|E]; apply Z.eqb_eq in E; [by left|by right]. }
  apply orb_false_iff in Ep as [Ep1 Ep2]. apply Z.eqb_neq in Ep1, Ep2.
  split; [split; [done|split; [done|]]|]. { intros ->. by rewrite Z.eqb_refl in Ee. }
  split; [lia|]. apply andb_false_iff in Em as [E|E]; [apply Z.ltb_ge in E; auto|]. apply negb_false_iff, Z.eqb_eq in E. right. lia.
Qed.
Lemma lock_needs c g v amount s s' : exec c (OpLock g v amount) s = Ok s' tt ->
  exists a x, c_dec c g = Some a /\ amount = Some x /\ a_vault v /\ lock_open s v /\ c_min_lock c <= x <= bal s a /\
    positions s !! (a, v, x_now (st_world s)) = None.
Proof.
  intros H. cbn [exec] in H. apply signed_ok in H as [H _]. unfold lock, gets, bind at 1 2 3 4 5 in H. cbn beta iota in H.
  destruct ((v =? FLEXIBLE) && v_ended (st_vaults s)) eqn:Ee; [discriminate|].
  destruct ((v_paused (st_vaults s) =? PAUSE_ALL) || (v_paused (st_vaults s) =? PAUSE_LOCK)) eqn:Ep; [discriminate|].
  destruct (c_dec c g) as [a|]; [|discriminate]. destruct amount as [x|]; [|discriminate].
  destruct (Z.ltb_spec x (c_min_lock c)); [discriminate|]. destruct (vault_exists v) eqn:Ev; cbn [negb] in H; [|discriminate].
  case_bool_decide as Eh; [discriminate|]. destruct (Z.ltb_spec (bal s a) x); [discriminate|].
  exists a, x. split; [done|]. split; [done|]. split.
  { unfold vault_exists in Ev. apply orb_true_iff in Ev as [E|E]; apply Z.eqb_eq in E; [by left|by right]. }
  apply orb_false_iff in Ep as [Ep1 Ep2]. apply Z.eqb_neq in Ep1, Ep2.
  split; [split; [done|split; [done|]]|]. { intros ->. by rewrite Z.eqb_refl in Ee. }
  split; [lia|]. unfold positions. by apply eq_None_not_Some.
Qed.
Lemma rejected_cases c s o : rejected c s o -> step c s o = s.
Proof. unfold rejected, step. by destruct (exec c o s). Qed.
Lemma rejected_intro c s o : (forall s', exec c o s = Ok s' tt -> False) -> rejected c s o.
Proof. intros H. unfold rejected. destruct (exec c o s) as [s' []| |] eqn:E; [by eapply H|done|done]. Qed.
Theorem unlock_rejections c s g v amount :
  v_paused (st_vaults s) = PAUSE_ALL \/ v_paused (st_vaults s) = PAUSE_UNLOCK \/
  (v = FLEXIBLE /\ v_ended (st_vaults s) = true) \/ ~ a_vault v \/ c_dec c g = None \/ amount = None \/
  (exists x, amount = Some x /\ x <= 0) \/
  (exists x a, amount = Some x /\ c_dec c g = Some a /\ (stake s a v < x \/ x < c_min_unlock c /\ x <> stake s a v)) ->
  rejected c s (OpUnlock g v amount) /\ step c s (OpUnlock g v amount) = s.
Proof.
  intros H. enough (rejected c s (OpUnlock g v amount)) as R by (split; [done|by apply rejected_cases]).
  apply rejected_intro. intros s' E. apply unlock_needs in E as (a & x & D & -> & Hv & (O1 & O2 & O3) & Hx & Hm).
  destruct H as [H|[H|[[-> H]|[H|[H|[H|[(y & [= <-] & H)|(y & a' & [= <-] & D' & H)]]]]]]]; try done.
  - by rewrite O3 in H.
  - congruence.
  - lia.
  - assert (a' = a) as -> by congruence. lia.
Qed.
Theorem lock_rejections c s g v amount :
  v_paused (st_vaults s) = PAUSE_ALL \/ v_paused (st_vaults s) = PAUSE_LOCK \/
  (v = FLEXIBLE /\ v_ended (st_vaults s) = true) \/ ~ a_vault v \/ c_dec c g = None \/ amount = None \/
  (exists x, amount = Some x /\ x < c_min_lock c) \/
  (exists x a, amount = Some x /\ c_dec c g = Some a /\ (bal s a < x \/ is_Some (positions s !! (a, v, x_now (st_world s))))) ->
  rejected c s (OpLock g v amount) /\ step c s (OpLock g v amount) = s.
Proof.
  intros H. enough (rejected c s (OpLock g v amount)) as R by (split; [done|by apply rejected_cases]).
  apply rejected_intro. intros s' E. apply lock_needs in E as (a & x & D & -> & Hv & (O1 & O2 & O3) & Hx & Hn).
  destruct H as [H|[H|[[-> H]|[H|[H|[H|[(y & [= <-] & H)|(y & a' & [= <-] & D' & H)]]]]]]]; try done.
  - by rewrite O3 in H.
  - congruence.
  - lia.
  - assert (a' = a) as -> by congruence. destruct H as [H|[? H]]; [lia|congruence].
Qed.
