(** An upgrade of the chain that ends season one while positions exist. *)
From Verif Require Export EndP.

Lemma frozen_refl c s : v_ended (st_vaults s) = true -> frozen c s s.
Proof. intros H. constructor; auto; intros; lia. Qed.
Lemma frozen_trans c s1 s2 s3 : frozen c s1 s2 -> frozen c s2 s3 -> frozen c s1 s3.
Proof.
  intros [A1 A2 A3 [A4 A4'] A5 A6 A7] [B1 B2 B3 [B4 B4'] B5 B6 B7]. constructor; [done|..].
  - intros u t. by rewrite B2.
  - congruence.
  - split; congruence.
  - congruence.
  - intros u t. etrans; [apply A6|apply B6].
  - lia.
Qed.
Lemma frozen_op c s s' o : chain_ok c -> reachable c s -> v_ended (st_vaults s) = true -> exec c o s = Ok s' tt -> frozen c s s'.
Proof.
  intros Hc Hr He E. pose proof (winv_reachable _ _ Hc Hr) as Hw.
  destruct (season_over c s s' o Hc Hr He E) as [S1 S2].
  destruct (lock_op o) eqn:Ho.
  - destruct o; try discriminate.
    + destruct (lock_inv' _ _ _ _ _ _ Hc E) as (b & x & D & -> & Hf & _ & _ & Hx & Hv & _ & Es).
      destruct Hv as [->| ->]; [|by rewrite Hf in He].
      destruct (lock_others s (AUser b) (position_account signer STAKED (x_now (st_world s))) STAKED x) as (_ & _ & _ & _ & _ & _ & L7).
      rewrite <- Es in L7. change (STAKED =? FLEXIBLE) with false in L7. cbn iota in L7.
      assert (Hmin : 0 < x) by (pose proof (ok_min_lock c Hc); lia).
      assert (HB : forall a, a <> AUser b -> bal s a <= bal s' a).
      { intros a Ha. rewrite Es. rewrite (core_bal _ _ a (lock_core _ _ _ _ _)), bal_send. unfold ind. rewrite (decide_False (P := a = AUser b)) by done. case_decide; lia. }
      split; [exact S1| | | |exact S2| |].
      * intros u t. rewrite Es. unfold lock_result, lock_state, positions. change (STAKED =? FLEXIBLE) with false. cbn.
        apply lookup_insert_ne. intros [=].
      * lia.
      * rewrite Es. unfold lock_result, with_stats, vprin_add, users_up, add_flex, put_pos, lock_state. cbn. by destruct (Nat.eqb _ 1).
      * intros u t. apply HB. apply (flex_account_not c u t).
      * by apply HB.
    + destruct (unlock_effect _ _ _ _ _ _ Hc Hw E) as (b & x & D & -> & Hv & (_ & _ & Ho') & HH). cbn zeta in HH.
      destruct HH as (Hx & _ & _ & _ & P & B & _). destruct Hv as [->| ->]; [|by rewrite Ho' in He].
      assert (HB : forall a, a <> StakedA -> bal s a <= bal s' a).
      { intros a Ha. rewrite B by done. unfold on. repeat case_decide; try done; lia. }
      destruct Hw as [Hw Hp]. destruct (unlock_inv' _ _ _ _ _ _ Hp E) as (b' & x' & d & s1 & D' & _ & _ & _ & _ & _ & _ & _ & Hu & Es).
      apply unls_frame in Hu as (_ & _ & _ & _ & U5 & (U6 & U7 & _) & _). change (STAKED =? FLEXIBLE) with false in U5. cbn iota in U5.
      split; [exact S1| | | |exact S2| |].
      * intros u t. apply P. cbn. intros [=].
      * rewrite Es. transitivity (v_total_flex (st_vaults s1)); [done|lia].
      * rewrite Es. unfold unlock_result, with_stats, vprin_add, users_down. cbn. by destruct (Nat.eqb _ 0).
      * intros u t. apply HB. apply (flex_account_not c u t).
      * by apply HB.
  - destruct (stakes_same _ _ _ _ Hc Hw Ho E) as (P1 & P2 & P3). constructor; auto.
    + intros u t. unfold positions. by rewrite P1.
    + by rewrite P3.
    + intros u t. eapply held_op; [done|done|done|exact E|]. right. right. eauto.
    + eapply held_op; [done|done|done|exact E|]. right. by left.
Qed.
Theorem frozen_run c s l : chain_ok c -> reachable c s -> v_ended (st_vaults s) = true -> frozen c s (run c s l).
Proof.
  intros Hc. revert s. induction l as [|o l IH]; intros s Hr He; [by apply frozen_refl|]. change (run c s (o :: l)) with (run c (step c s o) l).
  assert (Hs : frozen c s (step c s o)).
  { unfold step. destruct (exec c o s) as [s' []| |] eqn:E; [by eapply frozen_op|by apply frozen_refl..]. }
  eapply frozen_trans; [exact Hs|]. apply IH; [by apply step_reachable|apply Hs].
Qed.
Lemma upgrade_inv c s s' a : exec c (OpEndSeason a) s = Ok s' tt ->
  s' = s <| st_vaults; v_ended := true |> <| st_vaults; v_collector := a |>.
Proof. intros H. apply admin_inv in H; [|done]. apply H. Qed.
Theorem frozen_upgrade c s s' a l : chain_ok c -> reachable c s -> succeeds_with c s (OpEndSeason a) s' ->
  frozen c s (run c s' l) /\
  (forall g x, rejected c (run c s' l) (OpUnlock g FLEXIBLE x) /\ rejected c (run c s' l) (OpLock g FLEXIBLE x)).
Proof.
  intros Hc Hr E. assert (Hr' : reachable c s') by (by eapply reachable_step). pose proof (upgrade_inv _ _ _ _ E) as ->.
  assert (F : frozen c (s <| st_vaults; v_ended := true |> <| st_vaults; v_collector := a |>) (run c (s <| st_vaults; v_ended := true |> <| st_vaults; v_collector := a |>) l))
    by (by apply frozen_run).
  split; [destruct F as [F1 F2 F3 F4 F5 F6 F7]; by split|].
  intros g x. destruct (flexible_closed c _ g x (fz_ended _ _ _ F)) as [? ?]. done.
Qed.
Theorem upgrade_only c s s' a p : chain_ok c -> reachable c s -> succeeds_with c s (OpEndSeason a) s' ->
  p <> PSeasonEnded -> p <> PCollector -> unchanged p s s'.
Proof. intros Hc Hr E H1 H2. rewrite (upgrade_inv _ _ _ _ E). destruct p; done. Qed.
