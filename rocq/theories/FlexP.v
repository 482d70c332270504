(** Season one: the reward records created by index updates. *)
From Verif Require Export SeasonP.

(** * Claims for other chains leave vaults and principal alone *)
Definition untouched (s s' : state) : Prop := st_vaults s' = st_vaults s /\ forall a, prin s' a = prin s a.
Lemma untouched_refl s : untouched s s.
Proof. done. Qed.
Lemma untouched_trans s s1 s2 : untouched s s1 -> untouched s1 s2 -> untouched s s2.
Proof. intros [A1 A2] [B1 B2]. split; [congruence|]. intros a. by rewrite B2, A2. Qed.
Lemma untouched_pay s a y : untouched s (pay s a y).
Proof. unfold pay. destruct (0 <? y); [|done]. by rewrite send_from_yield. Qed.
Lemma untouched_self s a y : a <> YieldA -> a <> ModuleA -> untouched s (send_result s a a y).
Proof. intros. split; [done|]. intros b. rewrite prin_send by done. lia. Qed.
Lemma untouched_del s k : untouched s (del_retry s k).
Proof. unfold del_retry. by destruct (0 <? _). Qed.
Lemma external_untouched c x s :
  wp (claim_external_ibc c x;;; claim_external_hyp c x) s (fun s' _ => untouched s s') (fun s' _ => untouched s s').
Proof.
  assert (HF : forall {A} (f : A -> M unit) l, (forall z s, wp (f z) s (fun s' _ => untouched s s') (fun s' _ => untouched s s')) ->
    forall s, wp (for_each f l) s (fun s' _ => untouched s s') (fun s' _ => untouched s s')).
  { intros A f l Hf. induction l as [|z l IH]; intros s0; cbn; [done|]. apply wp_bind. eapply wp_mono; [apply Hf| |done].
    intros s1 [] E1. eapply wp_mono; [apply IH| |]; intros s2 ? E2; by eapply untouched_trans. }
  apply wp_bind. apply (wp_mono _ _ (fun s' _ => untouched s s') _ (fun s' _ => untouched s s')); [|intros s1 [] E1|done].
  - unfold claim_external_ibc. apply wp_bind, wp_gets, HF. intros [chan rc] s0.
    assert (H2 : untouched s0 (del_retry (pay s0 (AEscrow transfer_port chan) (yield_of s0 (AEscrow transfer_port chan))) (IBC, chan))).
    { eapply untouched_trans; [apply untouched_pay|apply untouched_del]. }
    apply (claim_ibc_one_spec c x chan rc s0 _ _ _ _ eq_refl eq_refl); cbn zeta.
    + intros _ _. exact H2.
    + intros _ _ _ _. eapply untouched_trans; [exact H2|]. by apply untouched_self.
    + intros s3 _ _ H3. eapply untouched_trans; [exact H2|]. destruct H3 as [->|[_ ->]]; [done|by apply untouched_self].
    + intros. done.
  - apply (wp_mono _ _ (fun s' _ => untouched s1 s') _ (fun s' _ => untouched s1 s')); [|intros; by eapply untouched_trans..].
    clear E1 s. unfold claim_external_hyp. apply wp_bind, wp_gets, wp_bind, claim_module_spec; [|done].
    intros Hb. pose proof (untouched_pay s1 WarpA (yield_of s1 WarpA)) as H0.
    destruct (0 <? yield_of s1 WarpA); cbn [negb]; [|by apply wp_ret].
    apply wp_bind, collect_routes_spec; [|done].
    intros [tot rs]. cbn [fst snd]. destruct (0 <? tot); cbn [negb]; [|by apply wp_ret].
    eapply wp_mono; [apply HF|intros; by eapply untouched_trans..].
    intros h s0. pose proof (untouched_del s0 (HYPERLANE, hr_id h)) as H2.
    apply claim_hyp_one_spec. intros q _. split; [done|]. split; [|split; [|done]].
    + intros. eapply untouched_trans; [exact H2|]. by apply untouched_self.
    + intros s3 _ H3. eapply untouched_trans; [exact H2|]. destruct H3 as [->|[_ ->]]; [done|by apply untouched_self].
Qed.

(** * Season one *)
Definition season_record (s : state) (i : Z) : reward :=
  mk_reward i (v_total_flex (st_vaults s)) (claim_at s i FlexibleA + claim_at s i StakedA).
Lemma season_one_exact c i s : (forall a, 0 <= bal s a) -> current_index s = i ->
  wp (vaults_yield_season_one c i) s
    (fun s' _ => exists yp, rewards s' = <[i := season_record s i]> (rewards s) /\
       (forall a, bal s' a = bal s a + on a FlexibleA (claim_at s i FlexibleA + claim_at s i StakedA)
          - on a YieldA (claim_at s i FlexibleA + claim_at s i StakedA)) /\
       (forall a, prin s' a = prin s a + on a FlexibleA yp - on a StakedA yp) /\
       (claim_at s i StakedA = 0 /\ yp = 0 \/ 0 < claim_at s i StakedA /\ yield_principal (claim_at s i StakedA) i = POk yp))
    (fun s' _ => rewards s' = rewards s).
Proof.
  intros Hb Hi. unfold vaults_yield_season_one. apply wp_bind.
  assert (Hc1 : forall a, claim_at s i a = claimable s a) by (intros; unfold claim_at, claimable; by rewrite Hi).
  rewrite !Hc1. set (fy := claimable s FlexibleA). set (sy := claimable s StakedA).
  assert (Hfy : 0 <= fy) by (subst fy; unfold claimable; case_match; lia).
  assert (Hsy : 0 <= sy) by (subst sy; unfold claimable; case_match; lia).
  assert (W1 : wp (claim_module_yield c FlexibleA) s (fun s1 y => y = fy /\ s1 = pay s FlexibleA fy) top2).
  { apply claim_module_exact; [done|]. auto. }
  assert (W2 : wp (claim_module_yield c FlexibleA) s (fun _ _ => True) (fun s1 _ => s1 = s)).
  { apply claim_module_spec; auto. }
  eapply wp_mono; [apply (wp_conj _ _ _ _ _ _ W1 W2)| |]; cbn beta; [|by intros s1 e [_ ->]].
  intros s1 y [[-> ->] _]. clear W1 W2. set (s1 := pay s FlexibleA fy).
  assert (Hv1 : st_vaults s1 = st_vaults s) by apply pay_vaults.
  assert (Hp1 : forall a, prin s1 a = prin s a) by apply untouched_pay.
  assert (Hi1 : current_index s1 = i) by (subst s1; unfold pay; destruct (0 <? fy); [by rewrite send_from_yield|done]).
  assert (HB1 : forall a, bal s1 a = bal s a + ind (a = FlexibleA) fy - ind (a = YieldA) fy) by (intros; by apply bal_pay').
  assert (Hcl : 0 <= bal s1 StakedA /\ claimable s1 StakedA = sy).
  { unfold claimable, sy. rewrite HB1, Hp1, Hi1. unfold ind. rewrite !decide_False by done. unfold claimable. rewrite Hi, Z.add_0_r, Z.sub_0_r. done. }
  destruct Hcl as [Hb1 Hcl].
  assert (Hyo : wp (get_yield_of StakedA) s1 (fun s2 y => s2 = s1 /\ y = sy) (fun _ _ => False)).
  { assert (V1 : wp (get_yield_of StakedA) s1 (fun s2 y => s2 = s1 /\ y = sy) top2).
    { apply wp_top. intros s2 y Hy. apply get_yield_of_ok in Hy as (-> & _ & ->); [|done]. rewrite <- claimable_present by done. done. }
    assert (V2 : wp (get_yield_of StakedA) s1 (fun _ _ => True) (fun _ _ => False)) by by apply get_yield_of_spec.
    eapply wp_mono; [apply (wp_conj _ _ _ _ _ _ V1 V2)| |]; cbn beta; [by intros ?? [? _]|by intros ?? [_ ?]]. }
  apply wp_bind. unfold claim_staked_vault_yield.
  apply (wp_mono _ _ (fun s2 y => y = sy /\ (sy = 0 /\ s2 = s1 \/
      exists yp, 0 < sy /\ yield_principal sy i = POk yp /\ s2 = shiftp (send_result s1 YieldA FlexibleA sy) yp))
      _ (fun s2 _ => st_vaults s2 = st_vaults s)); [| |intros s2 e E2; unfold rewards; by rewrite E2].
  - assert (Hall := claim_staked_spec c s1 sy).
    apply wp_bind. eapply wp_mono; [exact Hyo| |done]. cbn beta. intros s2 y [-> ->].
    destruct (Z.ltb_spec 0 sy) as [Hpos|]; cbn [negb]; [|apply wp_ret; split; [lia|left; split; [lia|done]]].
    apply wp_bind, new_coins_spec. intros _. apply wp_bind. unfold send_to_account. destruct (c_blocked c FlexibleA); [done|].
    apply send_yield_spec; [done| |done]. intros Hle. unfold pay. rewrite (proj2 (Z.ltb_lt 0 sy)) by done.
    set (s2 := send_result s1 YieldA FlexibleA sy).
    unfold get_index. apply wp_bind, wp_gets. assert (current_index s2 = i) as -> by exact Hi1.
    assert (Hv2 : st_vaults s2 = st_vaults s) by exact Hv1.
    apply wp_bind, wp_lift; [|by intros e ?%yield_principal_err]. intros yp Hyp.
    unfold get_principal. apply wp_bind, wp_gets, wp_bind, wp_lift; [|by intros e ?%int_chk_err]. intros z1 ->%int_sub_ok.
    apply wp_bind, wp_modify, wp_bind, wp_gets, wp_bind, wp_lift; [|by intros e ?%int_chk_err]. intros z2 ->%int_add_ok.
    apply wp_bind, wp_modify, wp_ret. split; [done|]. right. exists yp. split; [done|]. split; [done|].
    unfold shiftp. f_equal.
  - intros s2 y [-> Hc2]. apply wp_bind, wp_gets, wp_bind, wp_lift; [|by intros e ?%int_chk_err]. intros r ->%int_add_ok.
    apply wp_modify. destruct Hc2 as [[H0 ->]|(yp & Hpos & Hyp & ->)].
    + exists 0. rewrite H0. split_and!; [|intros a|intros a|auto].
      * unfold rewards, season_record, set. cbn. rewrite Hv1, !Hc1. fold fy sy. rewrite H0, (Z.add_comm fy). done.
      * match goal with |- bal ?z a = _ => change (bal z a) with (bal s1 a) end. rewrite HB1. unfold on, ind. repeat case_decide; lia.
      * match goal with |- prin ?z a = _ => change (prin z a) with (prin s1 a) end. rewrite Hp1. unfold on. repeat case_decide; lia.
    + exists yp. split_and!; [|intros a|intros a|auto].
      * unfold rewards, season_record, set. cbn. rewrite Hv1, !Hc1. fold fy sy. rewrite (Z.add_comm fy). done.
      * match goal with |- bal ?z a = _ => change (bal z a) with (bal (send_result s1 YieldA FlexibleA sy) a) end. rewrite bal_send, HB1. unfold on, ind. repeat case_decide; lia.
      * match goal with |- prin ?z a = _ => change (prin z a) with (prin (shiftp (send_result s1 YieldA FlexibleA sy) yp) a) end. rewrite prin_mget.
        change (d_principal (st_dollar (shiftp ?z ?y))) with (addz FlexibleA y (addz StakedA (- y) (d_principal (st_dollar z)))).
        rewrite !mget_addz, send_from_yield. change (d_principal (st_dollar (mk_state _ ?d _ _ _))) with (d_principal d). change (mget (d_principal (st_dollar s1)) a) with (prin s1 a). rewrite Hp1. unfold on. repeat case_decide; lia.
Qed.
Lemma chop_lower z : 0 <= z -> z / e18 <= dec_chop_round z.
Proof.
  intros Hz. unfold dec_chop_round. rewrite (Z.abs_eq z) by done. rewrite (proj2 (Z.ltb_ge z 0)) by done. generalize (z / e18) as q. intros q.
  repeat case_match; lia.
Qed.
(** Up to a millionfold index the moved principal is the yield's, rounded down. *)
Lemma yield_principal_exact y i yp : 0 <= y -> 0 < i <= 10 ^ 18 -> yield_principal y i = POk yp -> yp = floor_div (y * unit_index) i.
Proof.
  intros Hy Hi. unfold yield_principal, dec_quo_int, dec_quo, dec_truncate, dec_of_int, pbind. rewrite (proj2 (Z.eqb_neq e12 0)) by done.
  replace (Z.quot (i * e18) e12) with (i * 1000000).
  2:{ rewrite Z.quot_div_nonneg by (unfold e18, e12 in *; lia). replace (i * e18) with (i * 1000000 * e12) by (unfold e18, e12; lia). by rewrite Z.div_mul. }
  rewrite (proj2 (Z.eqb_neq (i * 1000000) 0)) by lia. cbn zeta.
  rewrite Z.quot_div_nonneg by (unfold e18 in *; lia).
  replace (y * e18 * e18 * e18) with (y * e12 * (e18 * e18) * 1000000) by (unfold e18, e12; lia).
  rewrite Z.div_mul_cancel_r by lia. set (N := y * e12 * (e18 * e18) / i).
  assert (HN : 0 <= N) by (apply Z.div_pos; unfold e12, e18; lia).
  destruct (chop_bounds N HN) as [Hq0 Hq]. pose proof (chop_lower N HN) as Hl. set (q := dec_chop_round N) in *.
  destruct (dec_fits q); [|done]. intros ->%int_chk_ok. rewrite Z.quot_div_nonneg by done. unfold floor_div. change unit_index with e12.
  set (f := y * e12 / i).
  pose proof (Z.div_mod (y * e12) i ltac:(lia)) as Hd. pose proof (Z.mod_pos_bound (y * e12) i ltac:(lia)) as Hm. fold f in Hd. set (r := (y * e12) mod i) in *.
  assert (HNf : N = f * (e18 * e18) + r * (e18 * e18) / i).
  { subst N. rewrite Hd. replace ((i * f + r) * (e18 * e18)) with (r * (e18 * e18) + (f * (e18 * e18)) * i) by ring. rewrite Z.div_add by lia. lia. }
  assert (HR : 0 <= r * (e18 * e18) / i <= e18 * e18 - e18).
  { split; [apply Z.div_pos; unfold e18; lia|]. apply Z.lt_succ_r, Z.div_lt_upper_bound; [lia|]. replace (i * Z.succ (e18 * e18 - e18)) with (i * (e18 * e18) - i * e18 + i) by ring.
    assert (r * (e18 * e18) <= (i - 1) * (e18 * e18)) by (apply Z.mul_le_mono_nonneg_r; unfold e18; lia).
    change (10 ^ 18) with e18 in Hi. assert (i * e18 <= e18 * e18) by (apply Z.mul_le_mono_nonneg_r; [done|apply Hi]). rewrite Z.mul_sub_distr_r in H. revert H H0. clear -Hi. generalize (e18 * e18) (i * e18) (r * (e18 * e18)) (i * (e18 * e18)). lia. }
  set (R := r * (e18 * e18) / i) in *. clearbody q N R f. clear Hd Hm r HN.
  symmetry. apply (Z.div_unique q e18 f (q - e18 * f)); [|lia].
  left. split.
  - assert (f * e18 <= N / e18); [|lia]. apply Z.div_le_lower_bound; [done|]. subst N. lia.
  - change (e18 / 2) with 500000000000000000 in Hq. unfold e18 in *. lia.
Qed.

(** * The record of an index update *)
Lemma on_other a b z : a <> b -> on a b z = 0.
Proof. intros. unfold on. by rewrite decide_False. Qed.
Lemma on_same a z : on a a z = z.
Proof. unfold on. by rewrite decide_True. Qed.
Record season_update (s s' : state) (i : Z) : Prop := {
  su_rewards : rewards s' = <[i := season_record s i]> (rewards s);
  su_flexible : bal s' FlexibleA = bal s FlexibleA + claim_at s i FlexibleA + claim_at s i StakedA;
  su_staked : bal s' StakedA = bal s StakedA;
  su_principal : exists yp, prin s' StakedA = prin s StakedA - yp /\ prin s' FlexibleA = prin s FlexibleA + yp /\
    (claim_at s i StakedA = 0 /\ yp = 0 \/ 0 < claim_at s i StakedA /\ yield_principal (claim_at s i StakedA) i = POk yp)
}.
Lemma season_one_update c x i s : 0 <= bal s ModuleA -> (forall a, 0 <= bal s a) -> v_ended (st_vaults s) = false ->
  wp (update_index c x i) s (fun s' _ => season_update s s' i)
    (fun s' _ => rewards s' = rewards s \/ rewards s' = <[i := season_record s i]> (rewards s)).
Proof.
  intros Hm Hb He. unfold update_index, get_index. apply wp_bind, wp_gets. destruct (Z.leb_spec i (current_index s)); [by left|].
  apply wp_bind, (accrue_spec i s _ _ _ eq_refl); [done| |].
  2:{ intros _ _. left. unfold accrued. by destruct (0 <? _). }
  intros Hn0. set (n := present _ _ - _) in *. set (s1 := accrued s i n n) in *.
  assert (Hv : st_vaults s1 = st_vaults s) by (subst s1; unfold accrued; by destruct (0 <? n)).
  assert (Hp1 : forall a, prin s1 a = prin s a) by (intros; apply prin_accrued).
  assert (Hi1 : current_index s1 = i) by (subst s1; unfold accrued; by destruct (0 <? n)).
  assert (HB1 : forall a, a <> YieldA -> bal s1 a = bal s a).
  { intros a Ha. subst s1. rewrite bal_accrued by done. unfold ind. rewrite decide_False by done. lia. }
  assert (HBY : 0 <= bal s1 YieldA).
  { subst s1. rewrite bal_accrued by done. unfold ind. rewrite decide_True by done. pose proof (Hb YieldA). lia. }
  assert (Hr1 : rewards s1 = rewards s) by (unfold rewards; by rewrite Hv).
  assert (Hcl : forall a, a <> YieldA -> claim_at s1 i a = claim_at s i a).
  { intros a Ha. unfold claim_at. by rewrite Hp1, HB1. }
  assert (Hrec : season_record s1 i = season_record s i).
  { unfold season_record. by rewrite Hv, !Hcl. }
  apply wp_bind, wp_gets. rewrite Hv, He. apply wp_bind.
  eapply wp_mono; [apply (season_one_exact c i s1); [|done]| |].
  - intros a. destruct (decide (a = YieldA)) as [->|Ha]; [done|]. rewrite HB1 by done. apply Hb.
  - cbn beta. intros s2 [] (yp & R2 & B2 & P2 & Y2). rewrite Hrec, Hr1 in R2. rewrite !Hcl in B2, Y2 by done.
    assert (W1 := external_upds c x s2 StakedA ltac:(by repeat split)).
    assert (W2 := external_upds c x s2 FlexibleA ltac:(by repeat split)).
    assert (W3 := external_untouched c x s2).
    eapply wp_mono; [apply (wp_conj _ _ _ _ _ _ (wp_conj _ _ _ _ _ _ W1 W2) W3)| |]; cbn beta.
    + intros s3 [] [[E1 E2] [E3 E4]]. constructor.
      * unfold rewards. by rewrite E3.
      * rewrite E2, B2, on_same, on_other, HB1, ?Hcl by done. lia.
      * rewrite E1, B2, !on_other, HB1, ?Hcl by done. lia.
      * exists yp. rewrite !E4, !P2, !on_same, !Hp1, !on_other by done. split; [lia|]. split; [lia|]. done.
    + intros s3 e [_ [E3 _]]. right. unfold rewards. by rewrite E3.
  - cbn beta. intros s2 e ->. left. done.
Qed.
Theorem season_delivery c s s' x bz i : chain_ok c -> reachable c s -> v_ended (st_vaults s) = false ->
  carried_index c bz = Some i -> exec c (OpDeliver x bz) s = Ok s' tt -> season_update s s' i.
Proof.
  intros Hc Hr He Hi E. destruct (winv_reachable _ _ Hc Hr) as [Hw _].
  destruct (solid_reachable _ _ Hc Hr) as [_ Hb].
  change (deliver c x bz s = Ok s' tt) in E. destruct (index_calls c x bz s s' i Hi E) as [d E'].
  destruct (wp_ok _ _ _ _ _ _ (season_one_update c x i (consume s d) (Hb _) Hb He) E') as [? ? ? ?]. by constructor.
Qed.
(** A token message records the same or nothing. *)
Theorem season_token c s s' x bz t : chain_ok c -> reachable c s -> v_ended (st_vaults s) = false ->
  carried_token c bz = Some t -> exec c (OpDeliver x bz) s = Ok s' tt ->
  rewards s' = rewards s \/ rewards s' = <[tk_index t := season_record s (tk_index t)]> (rewards s).
Proof.
  intros Hc Hr He Hi E. destruct (winv_reachable _ _ Hc Hr) as [Hw _].
  destruct (solid_reachable _ _ Hc Hr) as [_ Hb].
  change (deliver c x bz s = Ok s' tt) in E. apply deliver_calls in E as (v & pl & Ha & H). set (s0 := consume s (va_digest v)) in *.
  unfold carried_token in Hi. rewrite (carried_eq _ _ _ _ _ Ha) in Hi. unfold handle_payload in H.
  revert H. apply (wp_ok _ _ (fun s' _ => rewards s' = rewards s \/ rewards s' = <[tk_index t := season_record s (tk_index t)]> (rewards s)) top2).
  apply wp_bind, wp_lift; [|done]. intros ty Hty. rewrite Hty in Hi. destruct ty; try discriminate.
  apply wp_bind, wp_lift; [|done]. intros t' Ht. rewrite Ht in Hi. injection Hi as ->.
  destruct (negb _); [done|]. destruct (negb _); [done|].
  unfold mint. apply wp_bind.
  assert (W1 : wp (try (update_index c x (tk_index t))) s0 (fun s1 _ => rewards s1 = rewards s \/ rewards s1 = <[tk_index t := season_record s (tk_index t)]> (rewards s)) top2).
  { apply wp_try. eapply wp_mono; [apply (season_one_update c x (tk_index t) s0 (Hb _) Hb He)| |]; cbn beta; [|done].
    intros s1 _ U. right. exact (su_rewards _ _ _ U). }
  assert (W2 : wp (try (update_index c x (tk_index t))) s0 (fun s1 _ => index_tried c (tk_index t) s0 s1) top2).
  { apply update_index_tried; [apply Hb|apply Hw|]. auto. }
  eapply wp_mono; [apply (wp_conj _ _ _ _ _ _ W1 W2)| |done]. intros s1 b [R1 T1].
  destruct (index_tried_frame _ _ _ _ T1 ltac:(apply Hw)) as (_ & Hb1 & _).
  assert (0 <= bal s1 ModuleA) by (rewrite Hb1; apply Hb).
  apply issue_spec; [done|apply Hc|]. intros _ _ _.
  assert (rewards (issued s1 (c_acct c (sl_bytes (tk_recipient t))) (tk_amount t)) = rewards s1) as -> by (unfold issued, rewards; by destruct (0 <? _)).
  exact R1.
Qed.
Theorem season_record_exact c s s' x bz i : chain_ok c -> reachable c s -> v_ended (st_vaults s) = false ->
  carried_index c bz = Some i -> exec c (OpDeliver x bz) s = Ok s' tt ->
  let yf := claim_at s i FlexibleA in let ys := claim_at s i StakedA in
  rewards s' = <[i := mk_reward i (v_total_flex (st_vaults s)) (yf + ys)]> (rewards s) /\
  bal s' FlexibleA = bal s FlexibleA + yf + ys /\ bal s' StakedA = bal s StakedA /\
  (i <= 10 ^ 18 ->
     prin s' StakedA = prin s StakedA - floor_div (ys * unit_index) i /\
     prin s' FlexibleA = prin s FlexibleA + floor_div (ys * unit_index) i).
Proof.
  intros Hc Hr He Hi H yf ys. destruct (season_delivery c s s' x bz i Hc Hr He Hi H) as [S1 S2 S3 (yp & S4 & S5 & S6)].
  destruct (index_update c s s' x bz i Hc Hr Hi H) as [Hlt _]. pose proof (winv_reachable _ _ Hc Hr) as [Hw _]. pose proof (wf_index _ _ Hw) as Hidx.
  split; [exact S1|]. split; [exact S2|]. split; [exact S3|]. intros Hmax. fold ys in S6.
  assert (yp = floor_div (ys * unit_index) i) as <-; [|done].
  destruct S6 as [[-> ->]|[Hp Hy]]; [unfold floor_div; by rewrite Z.div_0_l by lia|]. apply yield_principal_exact; [lia|lia|done].
Qed.
