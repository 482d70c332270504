(** Index updates after season one. *)
From Verif Require Export RewardP.

(** The call a successful delivery makes. *)
Lemma deliver_calls c x bz s s' : deliver c x bz s = Ok s' tt ->
  exists v pl, accepted c s bz v pl /\ handle_payload c x pl (consume s (va_digest v)) = Ok s' tt.
Proof.
  apply (wp_ok _ _ (fun s' _ => exists v pl, accepted c s bz v pl /\ handle_payload c x pl (consume s (va_digest v)) = Ok s' tt) top2).
  unfold deliver. apply wp_bind, wp_gets. destruct (p_paused (st_portal s)) eqn:Ep; [done|].
  unfold parse_and_verify_vaa. apply wp_bind. destruct (c_vaa c bz) as [v|] eqn:Ev; [|done].
  apply wp_bind, wp_gets. bd; [done|]. apply wp_bind, wp_modify, wp_ret.
  apply wp_bind, wp_gets. cbn [st_portal].
  match goal with |- context [p_peers ?x !! _] => change (p_peers x) with (p_peers (st_portal s)) end.
  destruct (p_peers (st_portal s) !! va_chain v) as [pr|] eqn:Epr; [|done].
  bd; [|done]. cbn [negb]. apply wp_bind, wp_lift; [|done]. intros t Ht.
  bd; [|done]. cbn [negb]. bd; [|done]. cbn [negb]. apply wp_bind, wp_lift; [|done]. intros m Hm.
  apply wp_top. intros s1 [] Hs1. exists v, (mp_payload m). split; [|exact Hs1].
  constructor; eauto 10.
Qed.
Lemma carried_eq c s bz v pl : accepted c s bz v pl -> carried c bz = Some pl.
Proof. intros [_ Hv _ (pr & t & m & _ & _ & Ht & _ & _ & Hm & ->)]. unfold carried. by rewrite Hv, Ht, Hm. Qed.
Lemma index_calls c x bz s s' i : carried_index c bz = Some i -> deliver c x bz s = Ok s' tt ->
  exists d, update_index c x i (consume s d) = Ok s' tt.
Proof.
  intros Hi H. apply deliver_calls in H as (v & pl & Ha & H). exists (va_digest v). unfold carried_index in Hi. rewrite (carried_eq _ _ _ _ _ Ha) in Hi.
  unfold handle_payload, bind, lift in H. destruct (get_payload_type pl) as [[]| |]; try discriminate.
  destruct (decode_index_payload pl) as [[i' ch]| |]; try discriminate. injection Hi as ->. cbn [fst snd] in H. by destruct (negb _).
Qed.

(** Exact claims. *)
Lemma claim_module_exact c a s (Q : state -> Z -> Prop) : 0 <= bal s a ->
  (claimable s a <= bal s YieldA \/ claimable s a = 0 -> Q (pay s a (claimable s a)) (claimable s a)) ->
  wp (claim_module_yield c a) s Q top2.
Proof.
  intros Hb HQ.
  assert (H1 : wp (claim_module_yield c a) s (fun _ y => y = claimable s a) top2).
  { unfold claim_module_yield. apply wp_bind, wp_top. intros s1 y Hy. apply get_yield_of_ok in Hy as (-> & _ & ->); [|done].
    rewrite <- claimable_present by done. apply wp_bind. apply wp_any. intros. by apply wp_ret. }
  assert (H2 : wp (claim_module_yield c a) s (fun s' y => (y <= bal s YieldA \/ y = 0) /\ s' = pay s a y) top2).
  { apply claim_module_spec; auto. }
  eapply wp_mono; [apply (wp_conj _ _ _ _ _ _ H1 H2)| |done]. intros s' y [-> [Hle ->]]. auto.
Qed.

(** Claims for external chains only touch the warp and escrow accounts. *)
Lemma external_upds c x s a : bystander a ->
  wp (claim_external_ibc c x;;; claim_external_hyp c x) s (fun s' _ => bal s' a = bal s a) top2.
Proof.
  intros (A1 & A2 & A3).
  assert (HP : forall s b y, b = WarpA \/ (exists ch, b = AEscrow transfer_port ch) -> bal (pay s b y) a = bal s a).
  { intros s0 b y Hb. unfold pay. destruct (0 <? y); [|done]. rewrite bal_send. unfold ind. rewrite decide_False by done.
    rewrite decide_False; [lia|]. intros ->. destruct Hb as [?|[ch ?]]; [done|]. by apply (A3 ch). }
  assert (HS : forall s b x, bal (send_result s b b x) a = bal s a).
  { intros. rewrite bal_send. lia. }
  assert (HD : forall s k, bal (del_retry s k) a = bal s a) by (intros; unfold del_retry; by destruct (0 <? _)).
  assert (HF : forall {A} (f : A -> M unit) l, (forall z s, wp (f z) s (fun s' _ => bal s' a = bal s a) top2) ->
    forall s, wp (for_each f l) s (fun s' _ => bal s' a = bal s a) top2).
  { intros A f l Hf. induction l as [|z l IH]; intros s0; cbn; [done|]. apply wp_bind. eapply wp_mono; [apply Hf| |done].
    intros s1 [] E1. eapply wp_mono; [apply IH| |done]. intros s2 ? E2. cbn in *. congruence. }
  apply wp_bind. apply (wp_mono _ _ (fun s' _ => bal s' a = bal s a) _ top2); [|intros s1 [] E1|done].
  - unfold claim_external_ibc. apply wp_bind, wp_gets, HF. intros [chan rc] s0.
    apply (claim_ibc_one_spec c x chan rc s0 _ _ _ _ eq_refl eq_refl); cbn zeta; [| | |done].
    + intros _ _. rewrite HD, HP by eauto. done.
    + intros _ _ _ _. change (bal (add_ext (push ?z _) _ _) a) with (bal z a). rewrite HS, HD, HP by eauto. done.
    + intros s3 _ _ H3. change (bal (add_ext (add_retry ?z _ _) _ _) a) with (bal z a). destruct H3 as [->|[_ ->]]; [|rewrite HS]; rewrite HD, HP by eauto; done.
  - unfold claim_external_hyp. apply wp_bind, wp_gets, wp_bind, claim_module_spec; [|done].
    intros Hb. assert (H0 : bal (pay s1 WarpA (yield_of s1 WarpA)) a = bal s a) by (rewrite HP by auto; done).
    destruct (0 <? yield_of s1 WarpA); cbn [negb]; [|by apply wp_ret].
    apply wp_bind, collect_routes_spec; [|done].
    intros [tot rs]. cbn [fst snd]. destruct (0 <? tot); cbn [negb]; [|by apply wp_ret].
    eapply wp_mono; [apply HF| |done]; [|intros s2 ? E2; cbn in E2; congruence].
    intros h s0. apply claim_hyp_one_spec. intros q _. split; [intros _; by rewrite HD|]. split; [|split; [|done]].
    + intros. change (bal (add_ext (dispatch (set_token ?z _ _) _) _ _) a) with (bal z a). by rewrite HS, HD.
    + intros s3 _ H3. change (bal (add_ext (add_retry ?z _ _) _ _) a) with (bal z a). destruct H3 as [->|[_ ->]]; [by rewrite HD|].
      change (bal (set_token ?z _ _) a) with (bal z a). by rewrite HS, HD.
Qed.

(** The yield of the staked vault at a new index. *)
Definition staked_yield (s : state) (i : Z) : Z :=
  let z := floor_div (prin s StakedA * i) unit_index - bal s StakedA in if z <=? 1 then 0 else z.
Theorem season_two_update c x i s s' : 0 <= bal s ModuleA -> (forall a, 0 <= bal s a) -> good_collector s -> v_ended (st_vaults s) = true ->
  bystander (v_collector (st_vaults s)) -> v_collector (st_vaults s) <> StakedA ->
  update_index c x i s = Ok s' tt ->
  bal s' StakedA = bal s StakedA /\ bal s' (v_collector (st_vaults s)) = bal s (v_collector (st_vaults s)) + staked_yield s i.
Proof.
  intros Hm Hb [Hg1 Hg2] He Hby Hns. set (col := v_collector (st_vaults s)) in *.
  apply (wp_ok _ _ (fun s' _ => bal s' StakedA = bal s StakedA /\ bal s' col = bal s col + staked_yield s i) top2).
  unfold update_index, get_index. apply wp_bind, wp_gets. destruct (Z.leb_spec i (current_index s)); [done|].
  apply wp_bind, (accrue_spec i s _ _ _ eq_refl); [done| |done]. intros Hn0. set (n := present _ _ - _) in *. set (s1 := accrued s i n n) in *.
  assert (Hv : st_vaults s1 = st_vaults s) by (subst s1; unfold accrued; by destruct (0 <? n)).
  assert (Hp1 : prin s1 StakedA = prin s StakedA) by apply prin_accrued.
  assert (Hi1 : current_index s1 = i) by (subst s1; unfold accrued; by destruct (0 <? n)).
  assert (HB1 : forall a, a <> YieldA -> bal s1 a = bal s a).
  { intros a Ha. subst s1. rewrite bal_accrued by done. unfold ind. rewrite decide_False by done. lia. }
  apply wp_bind, wp_gets. rewrite Hv, He.
  assert (Hcl : claimable s1 StakedA = staked_yield s i).
  { unfold claimable, staked_yield. by rewrite Hp1, Hi1, HB1 by done. }
  apply wp_bind. apply (wp_mono _ _ (fun s2 _ => bal s2 StakedA = bal s StakedA /\ bal s2 col = bal s col + staked_yield s i) _ top2); [| |done].
  - unfold vaults_yield_season_two. apply wp_bind, claim_module_exact; [rewrite HB1 by done; apply Hb|]. rewrite Hcl. intros Hle.
    assert (Hy : 0 <= staked_yield s i) by (unfold staked_yield; case_match; lia). set (y := staked_yield s i) in *.
    destruct (Z.ltb_spec 0 y); cbn [negb].
    2:{ apply wp_ret. unfold pay. rewrite (proj2 (Z.ltb_ge 0 y)) by done. destruct Hby as (? & _). rewrite !HB1 by done. lia. }
    apply wp_bind, wp_gets, wp_bind, new_coins_spec. intros _. rewrite pay_vaults, Hv. fold col.
    apply send_plain_spec; try done. intros _. destruct Hby as (B1 & B2 & B3).
    rewrite !bal_xfer, !bal_pay', !HB1 by done. unfold ind.
    rewrite !(decide_True (P := StakedA = StakedA)), !(decide_True (P := col = col)) by done.
    rewrite !(decide_False (P := StakedA = YieldA)), !(decide_False (P := StakedA = col)), !(decide_False (P := col = YieldA)), !(decide_False (P := col = StakedA)) by done.
    lia.
  - intros s2 [] [E1 E2].
    assert (W1 := external_upds c x s2 StakedA ltac:(by repeat split)). assert (W2 := external_upds c x s2 col Hby).
    eapply wp_mono; [apply (wp_conj _ _ _ _ _ _ W1 W2)| |done]. intros s3 ? [-> ->]. done.
Qed.

(** * Season one stays closed *)
Theorem season_over c s s' o : chain_ok c -> reachable c s -> v_ended (st_vaults s) = true -> exec c o s = Ok s' tt ->
  v_ended (st_vaults s') = true /\ rewards s' = rewards s.
Proof.
  intros Hc Hr He E. pose proof (winv_reachable _ _ Hc Hr) as Hw. unfold rewards.
  split; [by apply (season_kept _ _ _ _ Hc Hw E)|].
  destruct (lock_op o) eqn:Ho.
  - destruct o; try discriminate.
    + destruct (lock_inv' _ _ _ _ _ _ Hc E) as (b & x & D & -> & H1 & H2 & H3 & H4 & H5 & H6 & Es).
      set (h := position_account signer vault (x_now (st_world s))) in *. destruct (lock_others s (AUser b) h vault x) as (_ & _ & L3 & _).
      by rewrite <- Es in L3.
    + pose proof E as E0. destruct Hw as [Hw Hp].
      destruct (unlock_inv' _ _ _ _ _ _ Hp E) as (b & x & d & s1 & D & -> & _ & _ & _ & H4 & H5 & H6 & Hu & ->).
      pose proof (in_map_positions s (AUser b) vault Hp) as Hm. destruct H4 as [-> | ->].
      * assert (Hx : 0 <= x) by lia. destruct (unls_staked_rewards _ _ _ _ _ _ _ _ Hm Hx Hu) as (E1 & _). exact E1.
      * exfalso. destruct (unlock_rejections c s signer FLEXIBLE (Some x)) as [R _]; [auto 10|]. unfold rejected in R. by rewrite E0 in R.
  - destruct (deliver_op o) eqn:Hn; [destruct o; try discriminate|by eapply rewards_same].
    destruct Hw as [Hw Hp]. destruct (deliver_inv' _ _ _ _ _ Hc Hw E) as (v & pl & _ & HH).
    set (s0 := consume s (va_digest v)) in *.
    assert (Hgo : forall i s1, index_tried c i s0 s1 -> v_rewards (st_vaults s1) = v_rewards (st_vaults s)).
    { intros i s1 Ht. apply tried_records in Ht as (_ & _ & T & _). by apply T. }
    destruct HH as [|i s1 _ _ H|t s1 _ _ _ _ H _ _ _].
    + done.
    + apply applied_tried in H. by eapply Hgo.
    + apply Hgo in H. unfold issued. by destruct (0 <? tk_amount t).
Qed.

(** The delivered form of [season_two_update]. *)
Theorem collector_paid c s s' x bz i : chain_ok c -> reachable c s -> v_ended (st_vaults s) = true ->
  bystander (v_collector (st_vaults s)) -> v_collector (st_vaults s) <> StakedA ->
  carried_index c bz = Some i -> exec c (OpDeliver x bz) s = Ok s' tt ->
  bal s' StakedA = bal s StakedA /\ bal s' (v_collector (st_vaults s)) = bal s (v_collector (st_vaults s)) + staked_yield s i.
Proof.
  intros Hc Hr He Hby Hns Hi E. destruct (winv_reachable _ _ Hc Hr) as [Hw _].
  destruct (solid_reachable _ _ Hc Hr) as [_ Hb].
  change (deliver c x bz s = Ok s' tt) in E. destruct (index_calls c x bz s s' i Hi E) as [d E']. clear E. rename E' into E.
  eapply (season_two_update c x i (consume s d) s'); try done; try apply Hb. apply Hw.
Qed.
Theorem season_over_run c s l : chain_ok c -> reachable c s -> v_ended (st_vaults s) = true ->
  v_ended (st_vaults (run c s l)) = true /\ rewards (run c s l) = rewards s.
Proof.
  intros Hc. revert s. induction l as [|o l IH]; intros s Hr He; [done|]. change (run c s (o :: l)) with (run c (step c s o) l).
  assert (Hs : v_ended (st_vaults (step c s o)) = true /\ rewards (step c s o) = rewards s).
  { unfold step. destruct (exec c o s) as [s' []| |] eqn:E; [|done|done]. by eapply season_over. }
  destruct Hs as [Hs <-]. apply IH; [|done]. by apply step_reachable.
Qed.
Theorem flexible_closed c s g amount : v_ended (st_vaults s) = true ->
  rejected c s (OpLock g FLEXIBLE amount) /\ rejected c s (OpUnlock g FLEXIBLE amount).
Proof. intros He. split; [apply lock_rejections|apply unlock_rejections]; auto 10. Qed.

(** * Queries *)
Lemma queries_read c : 
  let reads {A} (q : M A) := forall s s' r, q s = Ok s' r -> s' = s in
  reads q_index /\ reads q_paused /\ (forall a, reads (q_principal c a)) /\
  (forall a, reads (q_yield c a)) /\ reads q_stats /\ reads q_owner /\ reads q_portal_paused /\ reads q_peers /\
  (forall ch, reads (q_destination_tokens ch)) /\ reads q_nonce /\ (forall p id, reads (q_yield_recipient p id)) /\
  (forall p id, reads (q_retry_amount p id)) /\ reads q_pending_rewards /\ (forall a, reads (q_pending_rewards_by_provider c a)).
Proof.
  intros reads. split_and!; intros; subst reads; intros s s' r;
    unfold q_index, q_paused, q_principal, q_yield, q_stats, q_owner, q_portal_paused, q_peers, q_destination_tokens, q_nonce,
      q_yield_recipient, q_retry_amount, q_pending_rewards, q_pending_rewards_by_provider, get_yield, get_yield_of, get_index, get_principal, get_retry, gets, lift, bind, ret, fail;
    repeat case_match; intros; simplify_eq; done.
Qed.
