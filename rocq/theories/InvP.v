(** The basic invariant holds in every reachable state. *)
From Verif Require Export PosP.

(** * What a delivery leaves alone *)
Definition yield_packets (c : config) (F : list packet) : Prop :=
  Forall (fun p => exists chan rc amt, 0 < amt /\ p = yield_packet c chan rc amt) F.
Definition vrest (v : vaults) := (v_collector v, v_ended v, v_paused v, v_positions v, v_total_flex v, v_stats v).
Definition wrest (x : world) := (x_now x, x_posted x, x_channels x, x_acked x, x_routers x).
Definition drest (d : dollar) := (d_paused d, d_recipients d).
Record quiet (c : config) (s s' : state) : Prop := {
  qu_portal : st_portal s' = st_portal s;
  qu_vaults : vrest (st_vaults s') = vrest (st_vaults s);
  qu_dollar : drest (st_dollar s') = drest (st_dollar s);
  qu_world : wrest (st_world s') = wrest (st_world s);
  qu_packets : exists F, x_inflight (st_world s') = x_inflight (st_world s) ++ F /\ yield_packets c F
}.
Lemma quiet_refl c s : quiet c s s.
Proof. constructor; auto. exists []. rewrite app_nil_r. split; [done|constructor]. Qed.
Lemma quiet_trans c s s' s'' : quiet c s s' -> quiet c s' s'' -> quiet c s s''.
Proof.
  intros [H1 H2 H3 H4 (F & H5 & H6)] [G1 G2 G3 G4 (F' & G5 & G6)].
  constructor; try congruence. exists (F ++ F'). split; [by rewrite G5, H5, app_assoc|by apply Forall_app].
Qed.
Lemma quiet_same c s s' : st_portal s' = st_portal s -> vrest (st_vaults s') = vrest (st_vaults s) ->
  drest (st_dollar s') = drest (st_dollar s) -> wrest (st_world s') = wrest (st_world s) ->
  x_inflight (st_world s') = x_inflight (st_world s) -> quiet c s s'.
Proof. intros. constructor; auto. exists []. rewrite app_nil_r. split; [done|constructor]. Qed.
Lemma quiet_send c s f t amt : quiet c s (send_result s f t amt).
Proof. apply quiet_same; done. Qed.
Lemma quiet_pay c s a y : quiet c s (pay s a y).
Proof. unfold pay. destruct (0 <? y); [apply quiet_send|apply quiet_refl]. Qed.
Lemma upd_quiet c i s s' : upd c i s s' -> quiet c s s'.
Proof.
  intros [a y ? ? ?|fy s1 ? ? ? -> ?|fy s1 sy yp ? ? ? -> ? ? ?|y ? ? ?|a amt ? ?|s'' Hb].
  - apply quiet_send.
  - eapply quiet_trans; [apply (quiet_pay c s FlexibleA fy)|]. by apply quiet_same.
  - eapply quiet_trans; [apply (quiet_pay c s FlexibleA fy)|]. by apply quiet_same.
  - by apply quiet_same.
  - apply quiet_send.
  - destruct Hb as (E & R & F & T & D & -> & HF). constructor; try done. exists F. done.
Qed.
Lemma upds_quiet c i s s' : upds c i s s' -> quiet c s s'.
Proof. induction 1 as [|s s1 s2 H1 _ IH]; [apply quiet_refl|]. eapply quiet_trans; [by eapply upd_quiet|done]. Qed.
Lemma accrued_quiet c s i n d : quiet c s (accrued s i n d).
Proof.
  destruct (frame_accrued s i n d) as (_ & _ & _ & _ & _ & _ & _ & Hp & Hr & Ho & Hv & Hw).
  apply quiet_same; rewrite ?Hv, ?Hw; auto. unfold drest. congruence.
Qed.
Lemma issued_quiet c s to amt : quiet c s (issued s to amt).
Proof.
  destruct (frame_issued s to amt) as (_ & _ & _ & _ & Hp & Hr & Ho & Hv & Hw).
  apply quiet_same; rewrite ?Hv, ?Hw; auto. unfold drest. congruence.
Qed.
Lemma applied_quiet c i s s' : index_applied c i s s' -> quiet c s s'.
Proof.
  intros (_ & n & _ & _ & H). eapply quiet_trans; [apply (accrued_quiet c s i n n)|by eapply upds_quiet].
Qed.
Lemma tried_quiet c i s s' : index_tried c i s s' -> quiet c s s'.
Proof.
  intros [[_ ->]|(_ & n & d & _ & _ & _ & H)]; [apply quiet_refl|].
  eapply quiet_trans; [apply (accrued_quiet c s i n d)|by eapply upds_quiet].
Qed.
Lemma handled_quiet c pl s s' : handled c pl s s' -> quiet c s s'.
Proof.
  intros [|i s1 _ _ H|t s1 _ _ _ _ H _ _ _]; [apply quiet_refl|by eapply applied_quiet|].
  eapply quiet_trans; [by eapply tried_quiet|apply issued_quiet].
Qed.

Lemma deliver_inv' c x bz s s' : chain_ok c -> wfs c s -> exec c (OpDeliver x bz) s = Ok s' tt ->
  exists v pl, accepted c s bz v pl /\ handled c pl (consume s (va_digest v)) s'.
Proof.
  intros Hc Hw H. cbn in H. apply deliver_inv in H; auto.
  - by rewrite (wf_module c s Hw).
  - apply (wf_coll c s Hw).
  - apply (ok_blocked c Hc).
Qed.
Lemma deliver_quiet c x bz s s' : chain_ok c -> wfs c s -> exec c (OpDeliver x bz) s = Ok s' tt -> quiet c s s'.
Proof.
  intros Hc Hw H. destruct (deliver_inv' _ _ _ _ _ Hc Hw H) as (v & pl & _ & Hh).
  eapply quiet_trans; [|by eapply handled_quiet]. by apply quiet_same.
Qed.

(** * Messages other than deliveries *)
Lemma failed_frame c s p s' : failed_packet c s p s' ->
  st_portal s' = st_portal s /\ st_vaults s' = st_vaults s /\ st_world s' = st_world s /\
  drest (st_dollar s') = drest (st_dollar s) /\ ds_yield (d_stats (st_dollar s')) = ds_yield (d_stats (st_dollar s)).
Proof.
  unfold failed_packet. destruct (is_usdn c p).
  - intros (a & z & rc & _ & _ & _ & ->). by destruct (is_yield_packet c p).
  - by intros ->.
Qed.

Definition lock_op (o : op) : bool := match o with OpLock _ _ _ | OpUnlock _ _ _ => true | _ => false end.


(** The message inversions for user accounts. *)
Lemma claim_inv' c signer s s' : exec c (OpClaimYield signer) s = Ok s' tt ->
  exists b y, c_dec c signer = Some (AUser b) /\ d_paused (st_dollar s) = false /\ c_blocked c (AUser b) = false /\
    y = yield_of s (AUser b) /\ (y <= bal s YieldA \/ y = 0) /\ s' = pay s (AUser b) y.
Proof.
  intros H. cbn in H. apply signed_ok in H as (H & Hs). apply claim_yield_inv in H as (a & y & Hd & H).
  destruct Hs as [[b Hs]|Hs]; [|congruence]. assert (a = AUser b) as -> by congruence. eauto.
Qed.
Lemma lock_inv' c signer v amount s s' : chain_ok c ->
  exec c (OpLock signer v amount) s = Ok s' tt ->
  exists b amt, c_dec c signer = Some (AUser b) /\
    amount = Some amt /\ (v = FLEXIBLE -> v_ended (st_vaults s) = false) /\
    v_paused (st_vaults s) <> PAUSE_ALL /\ v_paused (st_vaults s) <> PAUSE_LOCK /\
    c_min_lock c <= amt <= bal s (AUser b) /\ (v = STAKED \/ v = FLEXIBLE) /\
    v_positions (st_vaults s) !! (AUser b, v, x_now (st_world s)) = None /\
    s' = lock_result s (AUser b) (position_account signer v (x_now (st_world s))) v amt.
Proof.
  intros Hc H. cbn in H. apply signed_ok in H as (H & [[b Hb]|Hn]).
  - destruct (lock_inv c signer v amount s s' (AUser b) Hc Hb ltac:(done) ltac:(done) H) as (amt & ?).
    eauto 10.
  - exfalso. revert H. unfold lock, gets, bind, fail. cbn. rewrite Hn. repeat case_match; discriminate.
Qed.
Lemma unlock_inv' c signer v amount s s' : pos_wf s ->
  exec c (OpUnlock signer v amount) s = Ok s' tt ->
  exists b amt d s1, c_dec c signer = Some (AUser b) /\
    amount = Some amt /\ (v = FLEXIBLE -> v_ended (st_vaults s) = false) /\
    v_paused (st_vaults s) <> PAUSE_ALL /\ v_paused (st_vaults s) <> PAUSE_UNLOCK /\
    (v = STAKED \/ v = FLEXIBLE) /\
    0 < amt <= list_sum pos_amount (positions_of s (AUser b) v) /\
    (c_min_unlock c <= amt \/ amt = list_sum pos_amount (positions_of s (AUser b) v)) /\
    unls signer (AUser b) v (positions_of s (AUser b) v) amt s 0 d s1 /\
    s' = unlock_result s1 (AUser b) v d.
Proof.
  intros Hp H. cbn in H. apply signed_ok in H as (H & [[b Hb]|Hn]).
  - destruct (unlock_inv c signer v amount s s' (AUser b) Hb ltac:(done) ltac:(done) (pos_wf_positive _ _ _ Hp) H) as (amt & d & s1 & ?).
    eauto 15.
  - exfalso. revert H. unfold unlock, unlock_internal, gets, bind, fail. cbn. rewrite Hn. repeat case_match; discriminate.
Qed.
Lemma transfer_inv' c ps signer chain tok rc amount s s' : bal s ModuleA = 0 ->
  exec c (OpTransfer ps signer chain tok rc amount) s = Ok s' tt ->
  exists b amt pr sender id, c_dec c signer = Some (AUser b) /\
    amount = Some amt /\ 0 <= amt < 2 ^ 63 /\ ps = true /\
    p_paused (st_portal s) = false /\
    p_peers (st_portal s) !! chain = Some pr /\
    is_Some (p_paths (st_portal s) !! (chain, tok)) /\
    blen rc = 32 /\
    pad32 (c_raw c (AUser b)) = POk sender /\ pad32 (be_encode 4 (p_nonce (st_portal s))) = POk id /\
    (amt <= bal s (AUser b) \/ amt = 0) /\
    s' = post (burned (bump_nonce s) (AUser b) amt)
      (encode_transceiver (mk_tm (padded_manager c) (pr_manager pr)
        (encode_manager (mk_mm id sender
          (encode_ntt (mk_ntt amt (raw_token c) rc chain (encode_additional (current_index s) tok))))) []),
       p_nonce (st_portal s)).
Proof.
  intros Hm H. cbn in H. apply signed_ok in H as (H & [[b Hb]|Hn]).
  - destruct (transfer_inv c ps signer chain tok rc amount s s' (AUser b) ltac:(lia) Hb ltac:(done) H) as (amt & pr & se & id & ?).
    exists b, amt, pr, se, id. auto.
  - exfalso. revert H. unfold transfer, lift, gets, bind, fail, get_index, panic. cbn. rewrite Hn. repeat case_match; discriminate.
Qed.

(** Messages that are neither administrative nor about vaults nor deliveries. *)
Definition plain_op (o : op) : bool :=
  match o with
  | OpClaimYield _ | OpTransfer _ _ _ _ _ _ | OpSend _ _ _ | OpMultiSend _ _ | OpIbcSend _ _ _ _ _ | OpIbcRecv _ _ _
  | OpIbcAck _ _ | OpIbcTimeout _ | OpWarpSend _ _ _ _ _ _ | OpWarpRecv _ _ _ => true
  | _ => false
  end.
Definition nonce_step (o : op) (s : state) : Z :=
  match o with OpTransfer _ _ _ _ _ _ => wrap_u32 (p_nonce (st_portal s) + 1) | _ => p_nonce (st_portal s) end.
Record plain (o : op) (s s' : state) : Prop := {
  pl_vaults : st_vaults s' = st_vaults s;
  pl_dollar : drest (st_dollar s') = drest (st_dollar s);
  pl_yield : ds_yield (d_stats (st_dollar s')) = ds_yield (d_stats (st_dollar s));
  pl_portal : st_portal s' = st_portal s <| p_nonce := nonce_step o s |>;
  pl_vaas : x_vaas (st_world s') = x_vaas (st_world s);
  pl_now : x_now (st_world s') = x_now (st_world s);
  pl_channels : x_channels (st_world s') = x_channels (st_world s);
  pl_routers : x_routers (st_world s') = x_routers (st_world s)
}.
Lemma portal_nonce_id (p : portal) : p <| p_nonce := p_nonce p |> = p.
Proof. by destruct p. Qed.
Lemma plain_same o s s' : nonce_step o s = p_nonce (st_portal s) -> st_vaults s' = st_vaults s ->
  drest (st_dollar s') = drest (st_dollar s) -> ds_yield (d_stats (st_dollar s')) = ds_yield (d_stats (st_dollar s)) ->
  st_portal s' = st_portal s ->
  (x_vaas (st_world s'), x_now (st_world s'), x_channels (st_world s'), x_routers (st_world s')) =
  (x_vaas (st_world s), x_now (st_world s), x_channels (st_world s), x_routers (st_world s)) -> plain o s s'.
Proof. intros Hn Hv Hd Hy Hp [= ? ? ? ?]. constructor; auto. rewrite Hn, portal_nonce_id. done. Qed.

Lemma plain_frame c o s s' : plain_op o = true -> chain_ok c -> wfs c s -> exec c o s = Ok s' tt -> plain o s s'.
Proof.
  intros Ho Hc Hw H. pose proof (ok_blocked c Hc) as Hbl. pose proof (ok_codec c Hc) as Hco.
  pose proof (wf_module c s Hw) as Hm. pose proof (wf_packets c s Hw) as Hpk.
  destruct o; try discriminate; clear Ho.
  - destruct (claim_inv' _ _ _ _ H) as (b & y & _ & _ & _ & _ & _ & ->).
    pose proof (pay_dside s (AUser b) y) as Hd. unfold dside in Hd.
    apply plain_same; rewrite ?pay_vaults, ?pay_portal, ?pay_world; auto; unfold drest; congruence.
  - destruct (transfer_inv' _ _ _ _ _ _ _ _ _ Hm H) as (b & amt & pr & sender & id & _ & _ & _ & _ & _ & _ & _ & _ & _ & _ & _ & ->).
    destruct (frame_burned (bump_nonce s) (AUser b) amt) as (_ & Hy & _ & _ & Hp & Hr & Ho & Hv & Hx).
    constructor; cbn; rewrite ?Hv, ?Ho, ?Hx; cbn; auto. unfold drest. cbn. by rewrite Hp, Hr.
  - destruct (op_send_inv _ _ _ _ _ _ Hbl H) as (_ & _ & _ & _ & ->). by apply plain_same.
  - destruct (op_multi_inv _ _ _ _ _ Hbl H) as (_ & _ & _ & _ & Hmu). apply multi_frame in Hmu as (? & ? & Hx & Hd & ?).
    apply plain_same; auto; [unfold drest; cbn in Hd; congruence|by rewrite Hx].
  - destruct (op_ibc_send_inv _ _ _ _ _ _ _ _ H) as (_ & _ & _ & ->). by apply plain_same.
  - destruct (op_ibc_recv_inv _ _ _ _ _ _ Hbl H) as (a & _ & _ & [[_ ->]|(_ & _ & _ & ->)]); by apply plain_same.
  - destruct (op_ibc_ack_inv _ _ _ _ _ Hco Hpk H) as (p & Hp & [[_ ->]|[_ Hf]]); [by apply plain_same|].
    apply failed_frame in Hf as (? & ? & Hx & ? & ?). apply plain_same; auto. by rewrite Hx.
  - destruct (op_ibc_timeout_inv _ _ _ _ Hco Hpk H) as (p & Hp & Hf).
    apply failed_frame in Hf as (? & ? & Hx & ? & ?). apply plain_same; auto. by rewrite Hx.
  - destruct (op_warp_send_inv c _ _ _ _ _ _ _ _ H) as (col & _ & _ & _ & _ & ->). by apply plain_same.
  - destruct (op_warp_recv_inv _ _ _ _ _ _ Hbl H) as (col & _ & _ & _ & _ & _ & ->). by apply plain_same.
Qed.

(** * Positions *)
Lemma pos_wf_pmap s : pos_wf s -> pmap_wf (v_positions (st_vaults s)).
Proof. intros H k p Hk. destruct (H k p Hk) as (? & ? & _). auto. Qed.
Lemma unlock_positions s1 a v d : v_positions (st_vaults (unlock_result s1 a v d)) = v_positions (st_vaults s1).
Proof. done. Qed.
Lemma lock_positions s a pa v amt : v_positions (st_vaults (lock_result s a pa v amt)) =
  <[(a, v, x_now (st_world s)) := mk_position (down amt (current_index s)) (current_index s) amt (x_now (st_world s))]>
    (v_positions (st_vaults s)).
Proof. unfold lock_result, lock_state, add_flex. by destruct (v =? FLEXIBLE). Qed.
Lemma positions_entries s a v : positions_of s a v = (entries_of (v_positions (st_vaults s)) a v).*2.
Proof. done. Qed.

Lemma vrest_pos v v' : vrest v' = vrest v -> v_positions v' = v_positions v.
Proof. unfold vrest. congruence. Qed.
Lemma vrest_coll v v' : vrest v' = vrest v -> v_collector v' = v_collector v.
Proof. unfold vrest. congruence. Qed.
Lemma vrest_ended v v' : vrest v' = vrest v -> v_ended v' = v_ended v.
Proof. unfold vrest. congruence. Qed.
Lemma wrest_now x x' : wrest x' = wrest x -> x_now x' = x_now x.
Proof. unfold wrest. congruence. Qed.

(** The vault settings that only an upgrade of the chain changes. *)
Lemma collector_fixed c o s s' : chain_ok c -> winv c s -> (forall a, o <> OpEndSeason a) -> exec c o s = Ok s' tt ->
  v_collector (st_vaults s') = v_collector (st_vaults s) /\ v_ended (st_vaults s') = v_ended (st_vaults s).
Proof.
  intros Hc [Hw Hp] Hn H. destruct (administrative o) eqn:Ha.
  { apply admin_inv in H; [|done]. destruct o; try discriminate; cbn in H; decompose [and] H; subst s'; try done. by destruct (Hn collector). }
  destruct (plain_op o) eqn:Hpo.
  { destruct (plain_frame c o s s' Hpo Hc Hw H) as [Hv _ _ _ _ _ _ _]. by rewrite Hv. }
  destruct o; try discriminate.
  - destruct (lock_inv' _ _ _ _ _ _ Hc H) as (b & amt & _ & _ & _ & _ & _ & _ & _ & _ & ->).
    unfold lock_result, lock_state, add_flex. by destruct (vault =? FLEXIBLE).
  - destruct (unlock_inv' _ _ _ _ _ _ Hp H) as (b & amt & d & s1 & _ & _ & _ & _ & _ & _ & _ & _ & Hu & ->).
    apply unls_frame in Hu as (_ & _ & He & Hcol & _). done.
  - apply deliver_quiet in H as [_ Hv _ _ _]; auto. split; [by apply vrest_coll|by apply vrest_ended].
Qed.

Lemma is_end_season o : (exists a, o = OpEndSeason a) \/ (forall a, o <> OpEndSeason a).
Proof. destruct o; try (right; intros ?; discriminate). left. by eexists. Qed.
Lemma season_kept c o s s' : chain_ok c -> winv c s -> exec c o s = Ok s' tt ->
  good_collector s' /\ (v_ended (st_vaults s) = true -> v_ended (st_vaults s') = true).
Proof.
  intros Hc Hw H. destruct (is_end_season o) as [[a ->]|Hn].
  - apply admin_inv in H; [|done]. cbn in H. destruct H as (H1 & H2 & ->). done.
  - destruct (collector_fixed c o s s' Hc Hw Hn H) as [E1 E2]. unfold good_collector. rewrite E1, E2. split; [destruct Hw as [Hw _]; apply (wf_coll c s Hw)|done].
Qed.

Lemma index_mono_label l s : cpre l s -> current_index s <= current_index (capply l s) /\
  (current_index s < 2 ^ 63 -> current_index (capply l s) < 2 ^ 63).
Proof.
  destruct l; cbn [cpre capply]; intros H; rewrite ?index_send; try lia.
  - change (current_index (shiftp ?a ?b)) with (current_index a). rewrite index_send. lia.
  - destruct (frame_accrued s i n d) as (-> & _). lia.
  - destruct (frame_issued s to amt) as (-> & _). lia.
  - destruct (frame_burned s from amt) as (-> & _). lia.
  - change (current_index (tallied s n)) with (current_index s). lia.
Qed.
Lemma ctrace_index ls s s' : ctrace ls s s' ->
  current_index s <= current_index s' /\ (current_index s < 2 ^ 63 -> current_index s' < 2 ^ 63).
Proof.
  intros T. apply (ctrace_rel (fun s s' => current_index s <= current_index s' /\
    (current_index s < 2 ^ 63 -> current_index s' < 2 ^ 63)) (fun _ => True)) with (ls := ls); auto.
  - intros s1 s2 Hs. rewrite (core_index _ _ Hs). lia.
  - intros s1 s2 s3. lia.
  - intros l s1 _. apply index_mono_label.
  - by apply Forall_true.
Qed.

Lemma module_label l s : cpre l s -> bal s ModuleA = 0 -> bal (capply l s) ModuleA = 0.
Proof.
  intros H H0. destruct l; cbn [cpre capply] in *; unfold ordinary in *.
  - rewrite bal_send. unfold ind. rewrite !decide_False by naive_solver. lia.
  - rewrite bal_send. unfold ind. rewrite !decide_False by naive_solver. lia.
  - change (bal (shiftp ?a ?b) ?x) with (bal a x). rewrite bal_send. unfold ind. rewrite !decide_False by done. lia.
  - rewrite !bal_send. unfold ind. rewrite !decide_False by naive_solver. lia.
  - rewrite bal_accrued by lia. unfold ind. rewrite decide_False by done. lia.
  - rewrite bal_issued by (try lia; naive_solver). unfold ind. rewrite decide_False by naive_solver. lia.
  - rewrite bal_burned by (try lia; naive_solver). unfold ind. rewrite decide_False by naive_solver. lia.
  - exact H0.
Qed.
Lemma ctrace_module ls s s' : ctrace ls s s' -> bal s ModuleA = 0 -> bal s' ModuleA = 0.
Proof.
  intros T. apply (ctrace_ind_core (fun s => bal s ModuleA = 0)) with (ls := ls); auto.
  - intros s1 s2 Hs. by rewrite (core_bal _ _ _ Hs).
  - intros l s1. apply module_label.
Qed.

Lemma yield_packet_ok c chan rc amt : 0 < amt -> packet_ok c (yield_packet c chan rc amt).
Proof. intros H _. exists (AEscrow transfer_port chan), amt, rc. cbn. auto. Qed.
Lemma packets_ok c o s s' : chain_ok c -> winv c s -> exec c o s = Ok s' tt ->
  Forall (packet_ok c) (x_inflight (st_world s')).
Proof.
  intros Hc [Hw Hp] H. pose proof (wf_packets c s Hw) as Hpk. pose proof (ok_blocked c Hc) as Hbl.
  pose proof (ok_codec c Hc) as Hco. pose proof (wf_module c s Hw) as Hm.
  assert (Hdel : forall n, Forall (packet_ok c) (delete n (x_inflight (st_world s)))).
  { intros n. by apply Forall_delete. }
  destruct (administrative o) eqn:Ha.
  { apply admin_inv in H; [|done]. destruct o; try discriminate; cbn in H; decompose [and] H; subst s'; try done.
    cbn. apply Forall_app. split; [done|]. apply Forall_singleton. intros He. congruence. }
  destruct o; try discriminate.
  - destruct (claim_inv' _ _ _ _ H) as (b & y & _ & _ & _ & _ & _ & ->). by rewrite pay_world.
  - destruct (lock_inv' _ _ _ _ _ _ Hc H) as (b & amt & _ & _ & _ & _ & _ & _ & _ & _ & ->).
    unfold lock_result, lock_state, add_flex. by destruct (vault =? FLEXIBLE).
  - destruct (unlock_inv' _ _ _ _ _ _ Hp H) as (b & amt & d & s1 & _ & _ & _ & _ & _ & _ & _ & _ & Hu & ->).
    apply unls_frame in Hu as (_ & _ & _ & _ & _ & _ & _ & Hx & _).
    change (st_world (unlock_result s1 (AUser b) vault d)) with (st_world s1). by rewrite Hx.
  - apply deliver_quiet in H as [_ _ _ _ (F & -> & HF)]; auto. apply Forall_app. split; [done|].
    eapply Forall_impl; [exact HF|]. intros p (chan & rc & amt & ? & ->). by apply yield_packet_ok.
  - destruct (transfer_inv' _ _ _ _ _ _ _ _ _ Hm H) as (b & amt & pr & sender & id & _ & _ & _ & _ & _ & _ & _ & _ & _ & _ & _ & ->).
    destruct (frame_burned (bump_nonce s) (AUser b) amt) as (_ & Hy & _ & _ & _ & Hr & Ho & Hv & Hx).
    cbn. by rewrite Hx.
  - destruct (op_send_inv _ _ _ _ _ _ Hbl H) as (_ & _ & _ & _ & ->). done.
  - destruct (op_multi_inv _ _ _ _ _ Hbl H) as (_ & _ & _ & _ & Hmu). apply multi_frame in Hmu as (_ & _ & -> & _). done.
  - destruct (op_ibc_send_inv _ _ _ _ _ _ _ _ H) as (He & Hamt & _ & ->). cbn. apply Forall_app. split; [done|].
    apply Forall_singleton. intros _. exists from, amount, receiver. split; [done|]. split; [lia|auto].
  - destruct (op_ibc_recv_inv _ _ _ _ _ _ Hbl H) as (a & _ & _ & [[_ ->]|(_ & _ & _ & ->)]); done.
  - destruct (op_ibc_ack_inv _ _ _ _ _ Hco Hpk H) as (p & Hpp & [[_ ->]|[_ Hf]]); [apply Hdel|].
    apply failed_frame in Hf as (_ & _ & -> & _). apply Hdel.
  - destruct (op_ibc_timeout_inv _ _ _ _ Hco Hpk H) as (p & Hpp & Hf).
    apply failed_frame in Hf as (_ & _ & -> & _). apply Hdel.
  - destruct (op_warp_send_inv c _ _ _ _ _ _ _ _ H) as (col & _ & _ & _ & _ & ->). done.
  - destruct (op_warp_recv_inv _ _ _ _ _ _ Hbl H) as (col & _ & _ & _ & _ & _ & ->). done.
Qed.

Lemma pos_wf_mono s s' : pos_wf s -> v_positions (st_vaults s') = v_positions (st_vaults s) ->
  current_index s <= current_index s' -> x_now (st_world s) <= x_now (st_world s') -> pos_wf s'.
Proof.
  intros H He Hi Hn k p Hk. rewrite He in Hk. destruct (H k p Hk) as (? & ? & ? & ? & ? & ?).
  repeat (split; [first [done|lia]|]). lia.
Qed.
Lemma positions_ok c o s s' : chain_ok c -> winv c s -> exec c o s = Ok s' tt -> pos_wf s'.
Proof.
  intros Hc Hwi H. pose proof Hwi as [Hw Hp].
  destruct (op_trace c o s s' Hc Hwi H) as (ls & T & _). apply ctrace_index in T as [Hi _].
  destruct (administrative o) eqn:Ha.
  { apply admin_inv in H; [|done]. destruct o; try discriminate; cbn in H; decompose [and] H; subst s';
      (eapply pos_wf_mono; [exact Hp|done|done|cbn; lia]). }
  destruct (plain_op o) eqn:Hpo.
  { destruct (plain_frame c o s s' Hpo Hc Hw H) as [Hv _ _ _ _ Hn _ _]. eapply pos_wf_mono; [exact Hp|by rewrite Hv|done|lia]. }
  destruct o; try discriminate.
  - destruct (lock_inv' _ _ _ _ _ _ Hc H) as (b & amt & _ & _ & _ & _ & _ & Hamt & Hv & Hk & ->).
    assert (Hx : x_now (st_world (lock_result s (AUser b) (position_account signer vault (x_now (st_world s))) vault amt)) = x_now (st_world s)).
    { unfold lock_result, lock_state, add_flex. by destruct (vault =? FLEXIBLE). }
    intros k p. rewrite lock_positions, Hx. intros [[<- <-]|[Hne Hl]]%lookup_insert_Some; cbn.
    + pose proof (ok_min_lock c Hc). pose proof (wf_index c s Hw).
      split; [lia|]. split; [done|]. split; [lia|]. split; [done|]. split; [eauto|lia].
    + destruct (Hp k p Hl) as (? & ? & ? & ? & ? & ?). repeat (split; [first [done|lia]|]). lia.
  - destruct (unlock_inv' _ _ _ _ _ _ Hp H) as (b & amt & d & s1 & _ & _ & _ & _ & _ & _ & Hamt & _ & Hu & ->).
    apply unls_frame in Hu as (Hpo' & _ & _ & _ & _ & _ & _ & Hx & _).
    intros k q. rewrite unlock_positions, Hpo', positions_entries.
    change (st_world (unlock_result s1 (AUser b) vault d)) with (st_world s1). rewrite Hx.
    intros Hk. apply take_pos_lookup in Hk as [Hk|(p & z & Hk & Hz & ->)]; [| |by apply pos_wf_pmap|lia].
    + destruct (Hp k q Hk) as (? & ? & ? & ? & ? & ?). repeat (split; [first [done|lia]|]). lia.
    + destruct (Hp k p Hk) as (? & ? & ? & ? & ? & ?). cbn. repeat (split; [first [done|lia]|]). lia.
  - apply deliver_quiet in H as [_ Hv _ Hx _]; auto. apply vrest_pos in Hv. apply wrest_now in Hx.
    eapply pos_wf_mono; [exact Hp|done|done|lia].
Qed.

Theorem winv_step c o s s' : chain_ok c -> winv c s -> exec c o s = Ok s' tt -> winv c s'.
Proof.
  intros Hc Hwi H. destruct (op_trace c o s s' Hc Hwi H) as (ls & T & _).
  pose proof Hwi as [Hw Hp]. split; [|by eapply positions_ok].
  constructor.
  - eapply ctrace_module; [exact T|apply (wf_module c s Hw)].
  - exact (proj1 (season_kept c o s s' Hc Hwi H)).
  - pose proof (wf_index c s Hw). apply ctrace_index in T. lia.
  - by eapply packets_ok.
Qed.
Lemma winv_fresh c s : fresh c s -> winv c s.
Proof.
  intros []. split.
  - constructor; auto.
    + unfold bal. by rewrite fresh_bank.
    + rewrite fresh_inflight. constructor.
  - intros k p. rewrite fresh_positions. by rewrite lookup_empty.
Qed.

(** Induction over histories. *)
Lemma run_snoc c s l o : run c s (l ++ [o]) = step c (run c s l) o.
Proof. unfold run. by rewrite fold_left_app. Qed.
Lemma run_cons c s l o : run c s (o :: l) = run c (step c s o) l.
Proof. done. Qed.
Lemma run_app c s l l' : run c s (l ++ l') = run c (run c s l) l'.
Proof. unfold run. by rewrite fold_left_app. Qed.
Lemma step_cases c s o : step c s o = s \/ exec c o s = Ok (step c s o) tt.
Proof. unfold step. destruct (exec c o s) as [s' []| |]; auto. Qed.
Lemma run_inv (P : state -> Prop) c s l : P s ->
  (forall s s' o, P s -> exec c o s = Ok s' tt -> P s') -> P (run c s l).
Proof.
  intros H0 Hs. revert s H0. induction l as [|o l IH]; intros s H0; [done|].
  rewrite run_cons. apply IH. destruct (step_cases c s o) as [->|H]; eauto.
Qed.
Lemma winv_run c s l : chain_ok c -> winv c s -> winv c (run c s l).
Proof. intros Hc Hw. apply run_inv; auto. intros s1 s2 o H1 H2. by eapply winv_step. Qed.
Lemma winv_reachable c s : chain_ok c -> reachable c s -> winv c s.
Proof. intros Hc (s0 & ops & Hf & ->). apply winv_run; auto. by apply winv_fresh. Qed.
Lemma reachable_inv (P : state -> Prop) c s : chain_ok c -> reachable c s ->
  (forall s, fresh c s -> P s) ->
  (forall s s' o, winv c s -> P s -> exec c o s = Ok s' tt -> P s') -> P s.
Proof.
  intros Hc (s0 & ops & Hf & ->) H0 Hs.
  assert (H : winv c (run c s0 ops) /\ P (run c s0 ops)); [|apply H].
  apply (run_inv (fun s => winv c s /\ P s)); [split; [by apply winv_fresh|auto]|].
  intros s1 s2 o [H1 H2] H3. split; [by eapply winv_step|eauto].
Qed.
Lemma reachable_step c s o s' : reachable c s -> exec c o s = Ok s' tt -> reachable c s'.
Proof.
  intros (s0 & ops & Hf & ->) H. exists s0, (ops ++ [o]). split; [done|].
  rewrite run_snoc. unfold step. by rewrite H.
Qed.
