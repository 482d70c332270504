(** Withdrawals from the flexible vault that succeed. *)
From Verif Require Import LiveP SolvencyP.
From Verif Require Export PayoutP.

Local Ltac elia := unfold e12 in *; lia.
(** * Rewards *)
Lemma user_reward_run r ap : 0 < rw_total r <= e18 -> 0 <= rw_rewards r < 2 ^ 140 -> 0 <= ap <= e18 -> user_reward r ap = POk (ur r ap).
Proof.
  intros HT HR Ha. unfold user_reward, dec_quo, dec_mul_int, dec_truncate, dec_of_int, ur.
  rewrite (proj2 (Z.eqb_neq (rw_total r * e18) 0)) by (unfold e18 in *; lia). cbn zeta.
  set (N := Z.quot (rw_rewards r * e18 * e18 * e18) (rw_total r * e18)).
  assert (HN : 0 <= N <= rw_rewards r * e18 * e18).
  { subst N. rewrite Z.quot_mul_cancel_r by (unfold e18 in *; lia). rewrite Z.quot_div_nonneg by (unfold e18 in *; lia).
    split; [apply Z.div_pos; unfold e18 in *; lia|]. apply Z.div_le_upper_bound; [lia|].
    assert (0 <= rw_rewards r * e18 * e18) by (unfold e18; lia). nia. }
  destruct (chop_bounds N ltac:(lia)) as [Q0 Q1]. set (q := dec_chop_round N) in *. clearbody q N.
  assert (Hq : q <= rw_rewards r * e18 + 1).
  { change (e18 / 2) with 500000000000000000 in Q1. unfold e18 in *. lia. }
  assert (Hq2 : q < 2 ^ 201).
  { assert (rw_rewards r * e18 <= 2 ^ 140 * 2 ^ 60) by (apply Z.mul_le_mono_nonneg; unfold e18; lia). change (2 ^ 140 * 2 ^ 60) with (2 ^ 200) in *.
    assert (2 ^ 200 + 1 < 2 ^ 201) by done. lia. }
  assert (F1 : dec_fits q = true). { apply Z.ltb_lt. rewrite Z.abs_eq by done. assert (2 ^ 201 < 2 ^ 315) by done. lia. }
  unfold pbind. rewrite F1.
  assert (Hm : 0 <= q * ap < 2 ^ 261).
  { split; [nia|]. assert (q * ap <= 2 ^ 201 * e18) by (apply Z.mul_le_mono_nonneg; lia). assert (2 ^ 201 * e18 < 2 ^ 261) by done. lia. }
  assert (F2 : dec_fits (q * ap) = true). { apply Z.ltb_lt. rewrite Z.abs_eq by lia. assert (2 ^ 261 < 2 ^ 315) by done. lia. }
  rewrite F2. apply int_chk_run. unfold int_range. rewrite Z.quot_div_nonneg by (lia || done).
  assert (0 <= q * ap / e18) by (apply Z.div_pos; lia || done). rewrite Z.abs_eq by done.
  apply Z.div_lt_upper_bound; [done|]. assert (2 ^ 261 < e18 * 2 ^ 256) by done. lia.
Qed.
Lemma walk_run T ci ap l : 0 <= ap <= e18 -> T < 2 ^ 140 ->
  (forall k r, (k, r) ∈ l -> 0 <= rw_rewards r /\ ap <= rw_total r <= e18) ->
  forall acc s, 0 <= acc -> acc + list_sum (fun kr => rw_rewards kr.2) l <= T ->
  runs (walk_rewards ci ap l acc) s (fun _ _ => True).
Proof.
  intros Ha HT. induction l as [|[k r] l IH]; intros Hl acc s H0 Hs; cbn [walk_rewards]; [by apply runs_ret|].
  destruct (Hl k r) as (R1 & R2 & R3); [by left|].
  assert (Hl' : forall k r, (k, r) ∈ l -> 0 <= rw_rewards r /\ ap <= rw_total r <= e18) by (intros; apply (Hl k0); by right).
  assert (HS : 0 <= list_sum (fun kr => rw_rewards kr.2) l).
  { apply list_sum_nonneg. intros [k0 r0] Hin. by destruct (Hl' _ _ Hin). }
  change (list_sum (fun kr : Z * reward => rw_rewards kr.2) ((k, r) :: l)) with (rw_rewards r + list_sum (fun kr => rw_rewards kr.2) l) in Hs.
  destruct (Z.ltb_spec 0 (rw_total r)); cbn [negb orb]; [|apply IH; [done|done|lia]].
  destruct (Z.ltb_spec 0 (rw_rewards r)); cbn [negb orb]; [|apply IH; [done|done|lia]].
  destruct (ur_bounds r ap ltac:(lia) R1 ltac:(lia)) as [U1 U2].
  assert (C : 2 ^ 140 < 2 ^ 256) by done. assert (C2 : e18 < 2 ^ 256) by done.
  apply runs_bind.
  assert (G : forall u, 0 <= u <= rw_rewards r -> runs (total' <- lift (int_sub (rw_total r) ap);;
      rewards' <- lift (int_sub (rw_rewards r) u);;
      modify (fun s => s <| st_vaults; v_rewards ::= <[k := mk_reward (rw_index r) total' rewards']> |>);;;
      acc' <- lift (int_add acc u);; walk_rewards ci ap l acc') s (fun _ _ => True)).
  { intros u Hu. apply runs_bind. eapply runs_lift; [apply int_chk_run; unfold int_range; lia|].
    apply runs_bind. eapply runs_lift; [apply int_chk_run; unfold int_range; lia|]. apply runs_bind, runs_modify.
    apply runs_bind. eapply runs_lift; [apply int_chk_run; unfold int_range; lia|]. apply IH; [done|lia|lia]. }
  destruct (negb _ && negb _).
  - eapply runs_lift; [apply user_reward_run; lia|]. by apply G.
  - apply runs_ret. apply G. lia.
Qed.
Lemma left_over_above s pi : (forall k r, v_rewards (st_vaults s) !! k = Some r -> 0 <= rw_rewards r) ->
  list_sum (fun kr => rw_rewards kr.2) (rewards_above s pi) <= left_over (v_rewards (st_vaults s)).
Proof.
  intros H. rewrite (list_sum_perm _ _ _ (rewards_above_perm s pi)), list_sum_filter. unfold left_over. rewrite fsum_list.
  assert (Hin : forall k r, (k, r) ∈ map_to_list (v_rewards (st_vaults s)) -> 0 <= rw_rewards r).
  { intros k r Hk%elem_of_map_to_list. by eapply H. }
  unfold list_sum. induction (map_to_list (v_rewards (st_vaults s))) as [|[k r] l IH]; [cbn; lia|]. cbn.
  specialize (IH (fun k r Hk => Hin k r (elem_of_list_further _ _ _ Hk))). specialize (Hin k r (elem_of_list_here _ _)). case_decide; lia.
Qed.

(** Coarse bounds, enough for every integer of one position's withdrawal. *)
Record room (T : Z) (s : state) : Prop := {
  ro_solid : solid s;
  ro_supply : supply s = T;
  ro_small : T < 2 ^ 140;
  ro_idx : 0 < current_index s < 2 ^ 63;
  ro_prin : forall x, Z.abs (prin s x) < 2 ^ 190
}.
Lemma room_calm T s : room T s -> calm T s.
Proof.
  intros [[H1 H2] H3 H4 H5 H6]. constructor; try done; [congruence|]. assert (2 ^ 140 < 2 ^ 180) by done. lia.
Qed.
Lemma room_up T s x : room T s -> 0 <= x <= 4 * T -> 0 <= up x (current_index s) < 2 ^ 183.
Proof.
  intros [H1 H2 H3 H4 H5] Hx. destruct (up_small x (current_index s) ltac:(lia) ltac:(lia)) as [U1 U2]. split; [done|].
  assert (x * e12 + 1 < 2 ^ 183); [|lia]. assert (2 ^ 140 * 4 * e12 + 1 < 2 ^ 183) by done. assert (x * e12 <= 2 ^ 140 * 4 * e12) by (apply Z.mul_le_mono_nonneg_r; [done|lia]). lia.
Qed.
Lemma room_send T s f t x : room T s -> ordinary f -> ordinary t -> 0 < x <= bal s f ->
  send_coins f t x s = Ok (send_result s f t x) tt.
Proof.
  intros Hr Hf Ht Hx. pose proof (calm_le _ _ f (room_calm _ _ Hr)) as H1. pose proof (calm_le _ _ t (room_calm _ _ Hr)) as H2.
  pose proof (room_up T s x Hr ltac:(lia)) as Hu. pose proof (cm_bal _ _ (room_calm _ _ Hr) t) as H3. destruct Hr as [A B C D E].
  pose proof (E f). pose proof (E t). assert (K1 : 2 ^ 140 + 2 ^ 140 < 2 ^ 256) by done. assert (K2 : 2 ^ 190 + 2 ^ 183 < 2 ^ 256) by done.
  assert (K3 : 2 ^ 140 * e12 + 2 ^ 63 < 2 ^ 256) by done. assert (x * e12 <= 2 ^ 140 * e12) by (apply Z.mul_le_mono_nonneg_r; [done|lia]).
  assert (0 <= x * e12) by (apply Z.mul_nonneg_nonneg; [lia|done]).
  apply send_run; [done|done|lia|lia|]. constructor; unfold int_range; lia.
Qed.
Lemma claim_rewards_run T a p part s : room T s -> rinv s -> prin_ok (v_positions (st_vaults s)) ->
  v_positions (st_vaults s) !! (a, FLEXIBLE, pos_time p) = Some p -> 0 < part <= pos_amount p -> pos_amount p <= T -> ordinary a ->
  runs (claim_rewards a p part) s (fun s2 rew => rewards_rel a p (down part (pos_index p)) s s2 rew).
Proof.
  intros Hr HR Hok Hp Hpart HpT Ha. destruct (Hok _ _ Hp) as (_ & Hpi & _).
  eapply (runs_spec _ _ _ (fun _ _ => True)).
  2:{ apply claim_rewards_spec; [apply Ha|apply Ha| |]; [intros; by constructor|]. cbn zeta. intros. by constructor. }
  destruct (settle_rinv s p part a HR Hok Hp Hpart) as [S1 _]. cbn zeta in S1. destruct HR as [R1 R2 R3].
  destruct (down_small part (pos_index p) ltac:(lia) Hpi) as [D1 D2].
  assert (Hpe : 0 <= part * e12 <= 2 ^ 140 * e12).
  { split; [apply Z.mul_nonneg_nonneg; [lia|done]|]. apply Z.mul_le_mono_nonneg_r; [done|]. pose proof (ro_small _ _ Hr). lia. }
  assert (K3 : 2 ^ 140 * e12 < 2 ^ 256) by done.
  unfold claim_rewards, get_principal, get_index.
  apply runs_bind, runs_gets. destruct (Z.ltb_spec 0 (prin s FlexibleA)); cbn [negb]; [|by apply runs_ret].
  apply runs_bind, runs_gets, runs_bind. eapply runs_lift; [apply principal_down_run; [done|unfold int_range; lia]|].
  apply runs_bind, runs_gets, runs_bind.
  set (ap := down part (pos_index p)) in *.
  assert (HT : left_over (v_rewards (st_vaults s)) <= T) by (pose proof (calm_le _ _ FlexibleA (room_calm _ _ Hr)); lia).
  assert (HL : list_sum (fun kr => rw_rewards kr.2) (rewards_above s (pos_index p)) <= T).
  { pose proof (left_over_above s (pos_index p)) as HL. assert (forall k r, v_rewards (st_vaults s) !! k = Some r -> 0 <= rw_rewards r) as HL' by (intros k r Hk; by destruct (R2 _ _ Hk)).
    specialize (HL HL'). lia. }
  assert (Hin : forall k r, (k, r) ∈ rewards_above s (pos_index p) -> pos_index p < k /\ v_rewards (st_vaults s) !! k = Some r).
  { intros k r. rewrite (rewards_above_perm s (pos_index p)), elem_of_list_filter, elem_of_map_to_list. done. }
  assert (Hrec : forall k r, (k, r) ∈ rewards_above s (pos_index p) -> 0 <= rw_rewards r /\ ap <= rw_total r <= e18).
  { intros k r [Hlt Hk]%Hin. destruct (R2 _ _ Hk) as (A1 & A2 & A3). destruct (below_part k a p part _ Hok Hp Hpart Hlt) as [B1 B2]. fold ap in B1, B2. lia. }
  destruct (decide (rewards_above s (pos_index p) = [])) as [En|Hne].
  { rewrite En. cbn [walk_rewards]. apply runs_ret. apply runs_bind. unfold new_coins. change (0 <? 0) with false. cbn iota. apply runs_ret. apply runs_bind.
    eapply runs_of_ok; [apply send_zero|by apply runs_ret]. }
  assert (Hap : ap <= e18).
  { destruct (rewards_above s (pos_index p)) as [|[k r] l]; [done|]. destruct (Hrec k r) as [_ ?]; [by left|lia]. }
  eapply runs_mono.
  { eapply (runs_spec _ _ (fun s' tot => s' = set_rewards s (settle_map (current_index s) ap (pos_index p) (v_rewards (st_vaults s))) /\
        tot = rsum (current_index s) ap (pos_index p) (v_rewards (st_vaults s))) (fun _ _ => True) (fun _ _ => True)).
    - apply (walk_run T); [lia|apply (ro_small _ _ Hr)|done|lia|lia].
    - apply walk_spec. split; [done|lia]. }
  cbn beta. intros s1 tot [-> ->]. set (tot := rsum _ _ _ _) in *.
  assert (H0 : 0 <= tot) by (by apply rsum_nonneg).
  apply runs_bind. unfold new_coins. rewrite (proj2 (Z.ltb_ge _ _)) by lia. apply runs_ret. apply runs_bind.
  set (s1 := set_rewards s _).
  assert (Hr1 : room T s1) by (destruct Hr; by constructor).
  destruct (Z.eq_dec tot 0) as [E0|Hn0].
  { rewrite E0. eapply runs_of_ok; [apply send_zero|by apply runs_ret]. }
  eapply runs_of_ok; [apply (room_send T); [done|split; done|done|]|by apply runs_ret].
  change (bal s1 FlexibleA) with (bal s FlexibleA). lia.
Qed.

(** * The positions *)
(** Bounds that last while the account [a] is paid. *)
Record fine (T : Z) (a : addr) (s : state) : Prop := {
  fi_solid : solid s;
  fi_supply : supply s = T;
  fi_small : T < 2 ^ 140;
  fi_idx : 0 < current_index s < 2 ^ 63;
  fi_prin : forall x, Z.abs (prin s x) + (T - bal s a) * (e12 + 1) < 2 ^ 190
}.
Lemma solid_le s x : solid s -> bal s x <= supply s.
Proof. intros [H1 H2]. rewrite <- H1, bal_mget. apply msum_get_le. intros j. rewrite <- bal_mget. apply H2. Qed.
Lemma fine_room T a s : fine T a s -> room T s.
Proof.
  intros [H1 H2 H3 H4 H5]. constructor; try done. intros x. specialize (H5 x). pose proof (solid_le s a H1).
  assert (0 <= (T - bal s a) * (e12 + 1)) by (apply Z.mul_nonneg_nonneg; [lia|done]). lia.
Qed.
Lemma fine_to T a s f x : fine T a s -> ordinary a -> ordinary f -> f <> a -> 0 < x <= bal s f -> fine T a (send_result s f a x).
Proof.
  intros [H1 H2 H3 H4 H5] Ha Hf Hne Hx.
  assert (HB : bal (send_result s f a x) a = bal s a + x).
  { rewrite bal_send. unfold ind. repeat case_decide; try congruence; lia. }
  destruct (up_small x (current_index s) ltac:(lia) ltac:(lia)) as [U1 U2]. assert (HE : 0 < e12) by done.
  constructor; try done.
  - apply (solid_label (LSend f a x)); done.
  - intros y. rewrite HB, prin_send by (apply Ha || apply Hf). specialize (H5 y). unfold ind. repeat case_decide; try congruence; lia.
Qed.
Lemma bal_pay_other s h y x : x <> h -> x <> YieldA -> bal (pay s h y) x = bal s x.
Proof. intros. unfold pay. destruct (0 <? y); [|done]. rewrite bal_send. unfold ind. rewrite !decide_False by done. lia. Qed.
Lemma fine_pay T a s h y : fine T a s -> ordinary h -> ordinary a -> h <> a -> y = yield_of s h -> 0 <= y -> y <= bal s YieldA \/ y = 0 -> fine T a (pay s h y).
Proof.
  intros [H1 H2 H3 H4 H5] Hh Ha Hne Hye Hy Hy'.
  assert (HB : bal (pay s h y) a = bal s a) by (apply bal_pay_other; [done|apply Ha]).
  assert (HP : forall x, prin (pay s h y) x = prin s x) by (intros x; unfold pay; destruct (0 <? y); [apply prin_pay|done]).
  constructor; rewrite ?HB; try done.
  - unfold pay. destruct (Z.ltb_spec 0 y); [|done]. apply (solid_label (LPay h y)); [|done]. cbn. split; [lia|done].
  - unfold pay. by destruct (0 <? y).
  - unfold pay. by destruct (0 <? y).
  - intros x. by rewrite HP.
Qed.
(** What is needed of the positions still to come. *)
Definition payable (c : config) (s : state) (b : bytes) (p : position) : Prop :=
  let h := vault_account c FLEXIBLE (AUser b) (pos_time p) in pos_amount p <= bal s h /\ c_blocked c h = false.
Definition yields (c : config) (s : state) (b : bytes) (l : list position) : Z :=
  list_sum (fun p => claimable s (vault_account c FLEXIBLE (AUser b) (pos_time p))) l.
Lemma claimable_nonneg s a : 0 <= claimable s a.
Proof. unfold claimable. cbn zeta. match goal with |- context [?x <=? 1] => destruct (Z.leb_spec x 1); lia end. Qed.
Lemma flex_loop T c g b l : codec_ok c -> c_dec c g = Some (AUser b) ->
  forall rem removed s, fine T (AUser b) s -> rinv s -> prin_ok (v_positions (st_vaults s)) ->
  Z.abs (v_total_flex (st_vaults s)) + (T - bal s (AUser b)) * (e12 + 1) < 2 ^ 255 ->
  Z.abs (distributed s) + (T - bal s (AUser b)) < 2 ^ 255 ->
  (forall p, p ∈ l -> pos_principal p < 2 ^ 255) ->
  in_map (v_positions (st_vaults s)) (AUser b) FLEXIBLE l -> Forall (payable c s b) l -> yields c s b l <= bal s YieldA ->
  0 <= removed -> removed + (T - bal s (AUser b)) * (e12 + 1) < 2 ^ 255 -> 0 <= rem <= list_sum pos_amount l -> rem < 2 ^ 256 ->
  runs (unlock_loop c g (AUser b) FLEXIBLE l rem removed) s (fun s' rr =>
    rr.1 = 0 /\ 0 <= rr.2 < 2 ^ 255 /\ vs_flex_principal (v_stats (st_vaults s')) = vs_flex_principal (v_stats (st_vaults s))).
Proof.
  intros Hc Hd. set (a := AUser b). assert (Ha : ordinary a) by done.
  induction l as [|p l IH]; intros rem removed s Hf HR Hok Hflex Hdist Hpp Hm Hpay Hy Hr0 Hr1 Hrem Hr256.
  { cbn [unlock_loop]. apply runs_ret. unfold list_sum in Hrem. cbn [foldr fst snd] in *. split; [lia|]. split; [|done].
    pose proof (solid_le s a (fi_solid _ _ _ Hf)) as HX. rewrite (fi_supply _ _ _ Hf) in HX.
    assert (0 <= (T - bal s a) * (e12 + 1)) by (apply Z.mul_nonneg_nonneg; [lia|done]). lia. }
  cbn [unlock_loop].
  pose proof (fine_room _ _ _ Hf) as Hroom. pose proof (room_calm _ _ Hroom) as Hcalm.
  assert (HaT : bal s a <= T) by (by apply calm_le). assert (HE : 0 < e12) by done.
  assert (HTE : 0 <= (T - bal s a) * (e12 + 1)) by (apply Z.mul_nonneg_nonneg; lia).
  destruct (Z.eqb_spec rem 0) as [->|Hne]. { apply runs_ret. cbn. split; [done|]. split; [lia|done]. }
  destruct (proj2 Hm p) as [Hp Hpos]; [by left|]. destruct (Hok _ _ Hp) as (_ & Hpi & Hrp).
  apply Forall_cons in Hpay as [[Hp1 Hp2] Hpay]. fold a in Hp1, Hp2. set (h := vault_account c FLEXIBLE a (pos_time p)) in *.
  destruct (flex_account_not c a (pos_time p)) as (N1 & N2 & N3 & N4 & N5 & _ & N6 & _). fold h in N1, N2, N3, N4, N5, N6.
  assert (Hh : ordinary h) by done. assert (Hha : h <> a) by apply N6.
  assert (HpT : bal s h <= T) by (by apply calm_le). assert (Hh0 : 0 <= bal s h) by apply Hcalm.
  assert (Hyl : 0 <= yields c s b l) by (apply list_sum_nonneg; intros q _; apply claimable_nonneg).
  change (yields c s b (p :: l)) with (claimable s h + yields c s b l) in Hy.
  pose proof (part_pos p rem Hpos ltac:(lia) Hne) as [P1 P2]. fold (part_of p rem). set (part := part_of p rem) in *.
  assert (HSl : 0 <= list_sum pos_amount l). { apply list_sum_nonneg. intros q Hq. destruct (proj2 Hm q) as [_ ?]; [by right|lia]. }
  assert (P3 : part <= rem /\ rem - part <= list_sum pos_amount l).
  { change (list_sum pos_amount (p :: l)) with (pos_amount p + list_sum pos_amount l) in Hrem. subst part. unfold part_of.
    destruct (Z.ltb_spec rem (pos_amount p)); lia. }
  destruct (down_small part (pos_index p) ltac:(lia) Hpi) as [D1 D2]. pose proof (fi_small _ _ _ Hf) as HT.
  assert (Hpe : 0 <= part * e12 <= 2 ^ 140 * e12).
  { split; [apply Z.mul_nonneg_nonneg; lia|]. apply Z.mul_le_mono_nonneg_r; lia. }
  assert (K1 : 2 ^ 140 * e12 < 2 ^ 255) by done. assert (K2 : 2 ^ 255 + 2 ^ 255 = 2 ^ 256) by done. assert (K3 : 2 ^ 140 * 4 < 2 ^ 255) by done.
  apply runs_bind. eapply runs_lift; [apply principal_down_run; [done|unfold int_range; lia]|].
  set (pp := down part (pos_index p)) in *.
  apply runs_bind. change (FLEXIBLE =? FLEXIBLE) with true. cbn iota.
  apply runs_bind, runs_gets.
  apply runs_bind. eapply runs_lift; [apply int_chk_run; unfold int_range; lia|].
  apply runs_bind, runs_modify, runs_bind.
  match goal with |- runs _ ?z _ => change z with (sub_flex s pp) end.
  set (s0 := sub_flex s pp).
  assert (Hf0 : fine T a s0) by (destruct Hf; by constructor).
  pose proof (fine_room _ _ _ Hf0) as Hroom0.
  assert (HR0 : rinv s0) by (destruct HR; by constructor).
  eapply runs_mono; [apply (claim_rewards_run T a p part s0 Hroom0 HR0 Hok Hp); [lia|lia|done]|]. fold pp.
  cbn beta. intros s2 rew Hrw.
  (* the rewards *)
  assert (H2 : 0 <= rew <= T /\ fine T a s2 /\ distributed s2 = distributed s /\ bal s2 YieldA = bal s YieldA /\ bal s2 h = bal s h /\ prin s2 h = prin s h /\
      current_index s2 = current_index s).
  { inversion Hrw as [Hz|tot Hz Ht Ht0 Ht1]; subst; [split; [lia|done]|].
    pose proof (calm_le _ _ FlexibleA (room_calm _ _ Hroom0)) as HFl.
    unfold rewarded, xfer in *. set (tot := rsum _ _ _ _) in *.
    split; [lia|]. destruct (Z.ltb_spec 0 tot) as [Hlt|Hge].
    - split.
      { apply fine_to; [by destruct Hf0|done|done|done|]. change (bal (set_rewards s0 _) FlexibleA) with (bal s0 FlexibleA). lia. }
      assert (FlexibleA <> YieldA /\ FlexibleA <> h /\ YieldA <> a /\ a <> h) as (? & ? & ? & ?) by done.
      split; [done|]. split; [|split; [|split]]; [rewrite bal_send; change (bal (set_rewards s0 _) YieldA) with (bal s YieldA)|rewrite bal_send; change (bal (set_rewards s0 _) h) with (bal s h)|
        rewrite prin_send by done; change (prin (set_rewards s0 _) h) with (prin s h)|done]; unfold ind; repeat case_decide; try congruence; lia.
    - split; [by destruct Hf0|done]. }
  destruct H2 as (G1 & G2 & G3 & G4 & G5 & G6 & G7).
  apply runs_bind. unfold increment_distributed. apply runs_bind, runs_gets. apply runs_bind.
  change (vs_flex_distributed (v_stats (st_vaults s2))) with (distributed s2). rewrite G3.
  eapply runs_lift; [apply int_chk_run; unfold int_range; lia|]. apply runs_modify.
  replace (distributed s + rew) with (distributed s2 + rew) by (by rewrite G3).
  match goal with |- runs _ ?z _ => change z with (add_dist s2 rew) end.
  assert (Hf3 : fine T a (add_dist s2 rew)) by (destruct G2; by constructor).
  rewrite (posacct c g a) by done. fold h.
  pose proof (room_calm _ _ (fine_room _ _ _ Hf3)) as Hcalm3.
  assert (Hfit : int_fits (prin s2 h * current_index s2) = true) by apply (calm_mul _ _ h (room_calm _ _ (fine_room _ _ _ G2))).
  assert (Hye : yield_of (add_dist s2 rew) h = claimable s h).
  { rewrite claimable_yield_of; [|change (bal (add_dist s2 rew) h) with (bal s2 h); lia|done].
    unfold claimable. change (bal (add_dist s2 rew) h) with (bal s2 h). change (prin (add_dist s2 rew) h) with (prin s2 h).
    change (current_index (add_dist s2 rew)) with (current_index s2). by rewrite G5, G6, G7. }
  pose proof (claimable_nonneg s h) as Hy0.
  apply runs_bind. apply (claim_module_run T); [done|done|rewrite Hye; change (bal (add_dist s2 rew) YieldA) with (bal s2 YieldA); lia|].
  rewrite Hye. set (y := claimable s h) in *. set (s3 := add_dist s2 rew) in *.
  assert (HyT : bal s2 YieldA <= T) by (apply calm_le, room_calm, (fine_room _ _ _ G2)).
  match goal with |- runs ?m (pay s3 h y) _ => assert (Hm1 : runs m (pay s3 h y) (fun s' z => s' = pay s3 h y /\ z = part + y)) end.
  { destruct (Z.ltb_spec 0 y).
    - eapply runs_lift; [apply int_chk_run; unfold int_range; lia|done].
    - apply runs_ret. split; [done|lia]. }
  eapply runs_mono; [exact Hm1|]. cbn beta. intros s4 z [-> ->]. clear Hm1.
  apply runs_bind. unfold new_coins. rewrite (proj2 (Z.ltb_ge _ _)) by lia. apply runs_ret.
  assert (Hf4 : fine T a (pay s3 h y)).
  { apply fine_pay; try done. left. change (bal s3 YieldA) with (bal s2 YieldA). lia. }
  assert (Hb4 : bal (pay s3 h y) h = bal s h + y).
  { rewrite bal_pay' by done. change (bal s3 h) with (bal s2 h). unfold ind. repeat case_decide; try congruence; lia. }
  apply runs_bind. eapply runs_of_ok; [apply (room_send T); [by eapply fine_room|done|done|lia]|].
  set (s5 := send_result (pay s3 h y) h a (part + y)).
  assert (Hf5 : fine T a s5) by (apply fine_to; [done|done|done|done|lia]).
  assert (HU : unl1 g a FLEXIBLE p part s (upos s5 a FLEXIBLE p part pp)).
  { subst s5. pose proof (unl_flex g a FLEXIBLE p part s s2 rew y eq_refl) as HX. unfold pacct in HX. rewrite (posacct c g a) in HX by done. fold h pp in HX.
    apply HX; [done|by rewrite <- Hye|left; lia|fold s3; lia|done]. }
  set (s6 := upos s5 a FLEXIBLE p part pp) in *.
  apply runs_bind.
  enough (G : runs (removed' <- lift (int_add removed pp);; remaining' <- lift (int_sub rem part);;
        unlock_loop c g a FLEXIBLE l remaining' removed') s6 (fun s' rr =>
        rr.1 = 0 /\ 0 <= rr.2 < 2 ^ 255 /\ vs_flex_principal (v_stats (st_vaults s')) = vs_flex_principal (v_stats (st_vaults s)))).
  { unfold s6, upos in G. destruct (pos_amount p <=? part).
    - unfold remove_position. apply runs_modify. exact G.
    - unfold rounded in Hrp. pose proof (down_super (pos_amount p - part) part (pos_index p) ltac:(lia) ltac:(lia) Hpi) as H4.
      pose proof (down_nonneg' (pos_amount p - part) (pos_index p) ltac:(lia) Hpi).
      replace (pos_amount p - part + part) with (pos_amount p) in H4 by lia. specialize (Hpp p ltac:(left)).
      apply runs_bind. eapply runs_lift; [apply int_chk_run; unfold int_range; fold pp in H4; lia|].
      apply runs_bind. eapply runs_lift; [apply int_chk_run; unfold int_range; lia|].
      unfold set_position. apply runs_modify. exact G. }
  pose proof (unl1_exact c g b p part s s6 Hc Hd ltac:(apply Hf) ltac:(done) ltac:(lia) Hpi HU) as [S1 S2 S3]. cbn zeta in S3. fold a h pp y in S3.
  set (r := if 0 <? prin s FlexibleA then _ else _) in S3. clearbody r. destruct S3 as (S3 & _ & S4 & S5 & S6 & S7).
  destruct (unl1_frame _ _ _ _ _ _ _ HU) as (F1 & _ & _ & _ & _ & (F6 & _) & _).
  assert (a <> FlexibleA /\ a <> YieldA /\ FlexibleA <> YieldA) as (Na1 & Na2 & Na3) by done.
  assert (Ba : bal s6 a = bal s a + part + r + y) by (rewrite S4; unfold ind; repeat case_decide; try congruence; lia).
  assert (Bo : forall q, q ∈ l -> let hq := vault_account c FLEXIBLE a (pos_time q) in bal s6 hq = bal s hq /\ prin s6 hq = prin s hq).
  { intros q Hq hq. destruct (flex_account_not c a (pos_time q)) as (M1 & M2 & M3 & M4 & M5 & _ & M6 & _). fold hq in M1, M2, M3, M4, M5, M6.
    assert (hq <> h).
    { intros [_ E]%account_private; [|done]. destruct Hm as [Hn _]. rewrite fmap_cons, NoDup_cons in Hn. apply (proj1 Hn). rewrite <- E. by apply elem_of_list_fmap_1. }
    rewrite S4, S5. unfold ind. repeat case_decide; try congruence; try (exfalso; eapply M6; done). lia. }
  assert (X1 : Z.abs (removed + pp) < 2 ^ 256) by (clear -Hr0 Hr1 HTE D1 D2 Hpe K1 K2; lia).
  assert (HpT' : 0 < part <= 2 ^ 140) by lia.
  assert (X2 : Z.abs (rem - part) < 2 ^ 256).
  { clear -Hrem Hr256 P1 P3. lia. }
  apply runs_bind. eapply runs_lift; [apply int_chk_run; exact X1|].
  apply runs_bind. eapply runs_lift; [apply int_chk_run; exact X2|].
  eapply runs_mono.
  { apply IH.
    - destruct Hf5; by constructor.
    - apply (unl1_rinv c g b FLEXIBLE p part s s6 Hc Hd); [by right|done|done|done|lia|done|done].
    - rewrite F1. apply prin_ok_upos; [done|done|lia].
    - rewrite S7, Ba. lia.
    - rewrite S6, Ba. lia.
    - intros q Hq. apply Hpp. by right.
    - rewrite F1. by apply in_map_tail.
    - rewrite Forall_forall in *. intros q Hq. destruct (Hpay q Hq) as [A1 A2]. split; [|done]. pose proof (proj1 (Bo q Hq)) as A3. cbn zeta in A3. fold a. unfold payable in A1. fold a in A1. lia.
    - assert (yields c s6 b l = yields c s b l) as ->.
      { unfold yields. apply list_sum_ext. intros q Hq. destruct (Bo q Hq) as [A1 A2]. cbn zeta in A1, A2. unfold claimable. fold a. by rewrite A1, A2, S1. }
      rewrite S4. unfold ind. repeat case_decide; try congruence; lia.
    - lia.
    - rewrite Ba. lia.
    - lia.
    - lia. }
  cbn beta. intros s' rr (Q1 & Q2 & Q3). split; [done|]. split; [done|]. congruence.
Qed.

Lemma waiting_list c s b : list_sum (fun p => claimable s (vault_account c FLEXIBLE (AUser b) (pos_time p))) (positions_of s (AUser b) FLEXIBLE) =
  waiting_yield c s (AUser b).
Proof.
  rewrite positions_sum. unfold waiting_yield. rewrite position_sum_fsum. unfold psum. apply fsum_ext. intros k p _. case_bool_decide; by case_decide.
Qed.
Lemma msum_list {K} `{Countable K} (l : list K) : forall m : gmap K Z, NoDup l -> (forall j, 0 <= mget m j) -> list_sum (mget m) l <= msum m.
Proof.
  induction l as [|k l IH]; intros m Hn H0.
  { rewrite msum_fsum. apply fsum_nonneg. intros j v Hj. specialize (H0 j). unfold mget in H0. by rewrite Hj in H0. }
  apply NoDup_cons in Hn as [Hk Hn]. change (list_sum (mget m) (k :: l)) with (mget m k + list_sum (mget m) l).
  assert (H1 : forall j, 0 <= mget (<[k := 0]> m) j).
  { intros j. destruct (decide (j = k)) as [->|]; [by rewrite mget_insert|by rewrite mget_insert_ne]. }
  specialize (IH (<[k := 0]> m) Hn H1). rewrite msum_insert in IH.
  rewrite (list_sum_ext (mget (<[k := 0]> m)) (mget m)) in IH; [lia|]. intros j Hj. apply mget_insert_ne. congruence.
Qed.
Lemma list_sum_le {A} (f g : A -> Z) l : (forall a, a ∈ l -> f a <= g a) -> list_sum f l <= list_sum g l.
Proof.
  induction l as [|x l IH]; intros H; [done|]. change (f x + list_sum f l <= g x + list_sum g l).
  specialize (IH (fun q Hq => H q (elem_of_list_further _ _ _ Hq))). specialize (H x (elem_of_list_here _ _)). lia.
Qed.
Lemma accounts_nodup c a l : chain_ok c -> NoDup (pos_time <$> l) -> NoDup ((fun p : position => vault_account c FLEXIBLE a (pos_time p)) <$> l).
Proof.
  intros Hc. induction l as [|p l IH]; intros Hn; [constructor|]. rewrite fmap_cons, NoDup_cons. rewrite fmap_cons, NoDup_cons in Hn. destruct Hn as [Hn1 Hn2]. split; [|by apply IH].
  intros (q & E & Hq)%elem_of_list_fmap. apply account_private in E as [_ E]; [|apply Hc]. apply Hn1. rewrite E. by apply elem_of_list_fmap_1.
Qed.
Lemma history_last c ops : forall s, run c s ops ∈ history c s ops.
Proof. induction ops as [|o ops IH]; intros s; cbn [history]; [by left|]. right. apply IH. Qed.

Theorem flexible_withdrawal c s0 ops g b x : chain_ok c -> fresh c s0 -> Forall flexible_small (history c s0 ops) ->
  let s := run c s0 ops in let a := AUser b in c_dec c g = Some a ->
  v_paused (st_vaults s) <> PAUSE_ALL -> v_paused (st_vaults s) <> PAUSE_UNLOCK -> v_ended (st_vaults s) = false ->
  0 < x <= stake s a FLEXIBLE -> c_min_unlock c <= x \/ x = stake s a FLEXIBLE ->
  waiting_yield c s a <= bal s YieldA -> (forall t, c_blocked c (vault_account c FLEXIBLE a t) = false) ->
  flexible_in_range s ->
  exists s', exec c (OpUnlock g FLEXIBLE (Some x)) s = Ok s' tt.
Proof.
  intros Hc Hf HF s a D O1 O2 O3 Hx Hmin Hy Hb [F1 F2 F3].
  assert (Hr : reachable c s) by (exists s0, ops; done).
  pose proof (winv_reachable _ _ Hc Hr) as [Hw Hp]. pose proof (wf_index _ _ Hw) as Hidx.
  pose proof (rinv_run c s0 ops Hc Hf HF) as HR. fold s in HR.
  assert (Hsmall : flexible_small s) by (rewrite Forall_forall in HF; apply HF, history_last). unfold flexible_small in Hsmall.
  destruct (totals_reachable c s FLEXIBLE Hc Hr) as (k & [T1 T2 T3 _]). specialize (T3 FLEXIBLE (or_intror eq_refl)).
  destruct (stakes_are_backed c s Hc Hr) as [_ HB].
  pose proof (solid_reachable c s Hc Hr) as Hsol. pose proof (solid_le s a Hsol) as HaT. pose proof (proj2 Hsol a) as Hb0.
  assert (HT0 : 0 <= total_stake_principal s FLEXIBLE).
  { unfold total_stake_principal. rewrite position_sum_fsum. apply fsum_nonneg. intros k' q Hq.
    destruct (k'.1.2 =? FLEXIBLE); [|lia]. destruct (T1 _ _ Hq) as (? & ? & ?).
    pose proof (down_nonneg' (pos_amount q) (pos_index q) ltac:(lia) ltac:(lia)). unfold rounded in *. lia. }
  assert (HTE : 0 <= (supply s - bal s a) * (e12 + 1) < 2 ^ 188).
  { split; [apply Z.mul_nonneg_nonneg; [lia|done]|]. assert (2 ^ 140 * (e12 + 1) < 2 ^ 188) by done.
    assert ((supply s - bal s a) * (e12 + 1) <= 2 ^ 140 * (e12 + 1)); [|lia]. apply Z.mul_le_mono_nonneg_r; [done|lia]. }
  assert (K1 : 2 ^ 189 + 2 ^ 188 < 2 ^ 190) by done. assert (K2 : 10 ^ 18 + 2 ^ 188 < 2 ^ 255) by done.
  assert (K3 : 2 ^ 254 + 2 ^ 140 < 2 ^ 255) by done. assert (K4 : 10 ^ 18 < 2 ^ 255) by done. assert (K5 : 10 ^ 18 + 2 ^ 255 < 2 ^ 256) by done.
  assert (K6 : 2 ^ 188 < 2 ^ 255) by done.
  set (m := exec c _). enough (runs m s (fun _ _ => True)) as H'.
  { apply runs_ok in H' as (s' & [] & H' & _). eauto. }
  subst m. cbn [exec]. unfold signed. rewrite D. unfold unlock. apply runs_bind, runs_gets. rewrite O3. rewrite andb_false_r.
  apply runs_bind, runs_gets. rewrite (proj2 (Z.eqb_neq _ _) O1), (proj2 (Z.eqb_neq _ _) O2). cbn [orb].
  unfold unlock_internal. rewrite D. rewrite (proj2 (Z.ltb_lt _ _)) by lia. cbn [negb]. change (vault_exists FLEXIBLE) with true. cbn [negb].
  apply runs_bind, runs_gets. rewrite <- stake_list in *. set (l := positions_of s a FLEXIBLE) in *.
  assert (Hpos : Forall (fun p => 0 < pos_amount p) l) by (by apply pos_wf_positive).
  pose proof (in_map_positions s a FLEXIBLE Hp) as Hm. fold l in Hm.
  assert (Hpay : Forall (payable c s b) l).
  { apply Forall_forall. intros p Hin. destruct (proj2 Hm p Hin) as [Hpm _]. split; [by apply HB|apply Hb]. }
  assert (HSb : list_sum pos_amount l <= supply s).
  { set (h := fun p : position => vault_account c FLEXIBLE a (pos_time p)).
    transitivity (list_sum (fun p => bal s (h p)) l).
    - apply list_sum_le. rewrite Forall_forall in Hpay. intros q Hq. apply (Hpay q Hq).
    - rewrite <- (list_sum_fmap h (bal s)). destruct Hsol as [S1 S2]. rewrite <- S1.
      rewrite (list_sum_ext _ (mget (bk_bal (st_bank s)))) by (intros; apply bal_mget).
      apply msum_list; [|intros j; rewrite <- bal_mget; apply S2]. destruct Hm as [Hn _]. by apply accounts_nodup. }
  set (S := list_sum pos_amount l) in *.
  apply runs_bind. eapply runs_lift; [apply sum_amounts_run; [lia|done|fold S; lia]|]. fold S. rewrite Z.add_0_l.
  rewrite (proj2 (Z.ltb_ge _ _)) by lia.
  assert (HM : (x <? c_min_unlock c) && negb (S =? x) = false).
  { destruct Hmin as [H'|H']; [by rewrite (proj2 (Z.ltb_ge _ _))|]. rewrite H', Z.eqb_refl. by rewrite andb_false_r. }
  rewrite HM. apply runs_bind. eapply runs_mono.
  { apply (flex_loop (supply s) c g b l); [apply Hc|done| |done|done| | | |done|done| | | | |].
    - constructor; [exact Hsol|reflexivity|exact F1|exact Hidx|]. intros z. specialize (F2 z). fold a. lia.
    - fold a. lia.
    - fold a. lia.
    - intros p Hin. destruct (proj2 Hm p Hin) as [Hpm _]. pose proof (principal_le_total _ _ _ T1 Hpm) as HPT. cbn [fst snd] in HPT. lia.
    - unfold yields. fold a. fold l. unfold l, a. rewrite waiting_list. exact Hy.
    - reflexivity.
    - fold a. lia.
    - fold S. lia.
    - assert (2 ^ 140 < 2 ^ 256) by done. lia. }
  intros s1 [r1 r2]. cbn [fst snd]. intros (-> & Q2 & Q3). rewrite Z.eqb_refl. cbn [negb].
  apply runs_bind, runs_gets. apply runs_bind.
  change (vault_total s FLEXIBLE) with (vs_flex_principal (v_stats (st_vaults s))) in *.
  assert (G : forall s2, vs_flex_principal (v_stats (st_vaults s2)) = vs_flex_principal (v_stats (st_vaults s)) -> runs (decrement_vault_principal FLEXIBLE r2) s2 (fun _ _ => True)).
  { intros s2 E2. unfold decrement_vault_principal. apply runs_bind, runs_gets. apply runs_bind. change (vault_principal s2 FLEXIBLE) with (vs_flex_principal (v_stats (st_vaults s2))). rewrite E2.
    eapply runs_lift; [apply int_chk_run; unfold int_range; lia|]. unfold set_vault_principal. by apply runs_modify. }
  unfold whenb. destruct (Nat.eqb _ _); [unfold decrement_vault_users; apply runs_modify|apply runs_ret]; apply G; cbn; by rewrite Q3.
Qed.
