(** Administration, deliveries and outgoing messages. *)
From Verif Require Export CoreThmP.

(** * Consumed VAAs and posted messages *)
Lemma applied_vaas c i s s' : index_applied c i s s' -> good_collector s -> x_vaas (st_world s') = x_vaas (st_world s).
Proof.
  intros (_ & n & _ & _ & H) Hg. apply upd_frame' in H; [|by apply accrued_good].
  destruct H as (_ & _ & _ & _ & _ & _ & _ & _ & _ & _ & _ & -> & _). by destruct (frame_accrued s i n n) as (_ & _ & _ & _ & _ & _ & _ & _ & _ & _ & _ & ->).
Qed.
Lemma tried_vaas c i s s' : index_tried c i s s' -> good_collector s -> x_vaas (st_world s') = x_vaas (st_world s).
Proof.
  intros [[_ ->]|(_ & n & d & _ & _ & _ & H)] Hg; [done|]. apply upd_frame' in H; [|by apply accrued_good].
  destruct H as (_ & _ & _ & _ & _ & _ & _ & _ & _ & _ & _ & -> & _). by destruct (frame_accrued s i n d) as (_ & _ & _ & _ & _ & _ & _ & _ & _ & _ & _ & ->).
Qed.
Lemma handled_vaas c pl s s' : handled c pl s s' -> good_collector s -> x_vaas (st_world s') = x_vaas (st_world s).
Proof.
  intros [|i s1 _ _ H|t s1 _ _ _ _ H _ _ _] Hg; [done|by eapply applied_vaas|].
  destruct (frame_issued s1 (c_acct c (sl_bytes (tk_recipient t))) (tk_amount t)) as (_ & _ & _ & _ & _ & _ & _ & _ & ->).
  by eapply tried_vaas.
Qed.
Definition vaa_digest (c : config) (bz : bytes) : option bytes := va_digest <$> c_vaa c bz.
Lemma vaas_op c o s s' : chain_ok c -> winv c s -> exec c o s = Ok s' tt ->
  match o with
  | OpDeliver _ bz => exists v, c_vaa c bz = Some v /\ va_digest v ∉ x_vaas (st_world s) /\
      x_vaas (st_world s') = {[va_digest v]} ∪ x_vaas (st_world s)
  | _ => x_vaas (st_world s') = x_vaas (st_world s)
  end.
Proof.
  intros Hc [Hw Hp] H. destruct (administrative o) eqn:Ha.
  { apply admin_inv in H; [|done]. destruct o; try discriminate; cbn in H; decompose [and] H; subst s'; done. }
  destruct (plain_op o) eqn:Hpo.
  { destruct (plain_frame c o s s' Hpo Hc Hw H) as [_ _ _ _ Hv _ _ _]. by destruct o. }
  destruct o; try discriminate.
  - destruct (lock_inv' _ _ _ _ _ _ Hc H) as (b & amt & _ & _ & _ & _ & _ & _ & _ & _ & ->).
    unfold lock_result, lock_state, add_flex. by destruct (vault =? FLEXIBLE).
  - destruct (unlock_inv' _ _ _ _ _ _ Hp H) as (b & amt & d & s1 & _ & _ & _ & _ & _ & _ & _ & _ & Hu & ->).
    apply unls_frame in Hu as (_ & _ & _ & _ & _ & _ & _ & Hx & _). cbn. by rewrite Hx.
  - destruct (deliver_inv' _ _ _ _ _ Hc Hw H) as (v & pl & [A1 A2 A3 A4] & Hh).
    exists v. split; [done|]. split; [done|]. by rewrite (handled_vaas _ _ _ _ Hh) by apply Hw.
Qed.
Lemma posted_op c o s s' : chain_ok c -> winv c s -> exec c o s = Ok s' tt ->
  match o with
  | OpTransfer _ _ _ _ _ _ => exists m, x_posted (st_world s') = x_posted (st_world s) ++ [(m, p_nonce (st_portal s))]
  | _ => x_posted (st_world s') = x_posted (st_world s)
  end.
Proof.
  intros Hc [Hw Hp] H. pose proof (ok_blocked _ Hc) as Hbl. pose proof (ok_codec _ Hc) as Hco.
  pose proof (wf_packets _ _ Hw) as Hpk.
  destruct (administrative o) eqn:Ha.
  { apply admin_inv in H; [|done]. destruct o; try discriminate; cbn in H; decompose [and] H; subst s'; done. }
  destruct o; try discriminate.
  - destruct (claim_inv' _ _ _ _ H) as (b & y & _ & _ & _ & _ & _ & ->). by rewrite pay_world.
  - destruct (lock_inv' _ _ _ _ _ _ Hc H) as (b & amt & _ & _ & _ & _ & _ & _ & _ & _ & ->).
    unfold lock_result, lock_state, add_flex. by destruct (vault =? FLEXIBLE).
  - destruct (unlock_inv' _ _ _ _ _ _ Hp H) as (b & amt & d & s1 & _ & _ & _ & _ & _ & _ & _ & _ & Hu & ->).
    apply unls_frame in Hu as (_ & _ & _ & _ & _ & _ & _ & Hx & _). cbn. by rewrite Hx.
  - apply deliver_quiet in H as [_ _ _ Hx _]; auto. unfold wrest in Hx. congruence.
  - destruct (transfer_inv' _ _ _ _ _ _ _ _ _ (wf_module _ _ Hw) H)
      as (b & amt & pr & sender & id & _ & -> & Hamt & _ & _ & _ & _ & _ & _ & _ & _ & ->).
    eexists. cbn [st_world OpsP.post]. change (x_posted (st_world (OpsP.post ?a ?b))) with (x_posted (st_world a) ++ [b]).
    destruct (frame_burned (bump_nonce s) (AUser b) amt) as (_ & _ & _ & _ & _ & _ & _ & _ & ->). done.
  - destruct (op_send_inv _ _ _ _ _ _ Hbl H) as (_ & _ & _ & _ & ->). done.
  - destruct (op_multi_inv _ _ _ _ _ Hbl H) as (_ & _ & _ & _ & Hmu). apply multi_frame in Hmu as (_ & _ & -> & _). done.
  - destruct (op_ibc_send_inv _ _ _ _ _ _ _ _ H) as (_ & _ & _ & ->). done.
  - destruct (op_ibc_recv_inv _ _ _ _ _ _ Hbl H) as (a & _ & _ & [[_ ->]|(_ & _ & _ & ->)]); done.
  - destruct (op_ibc_ack_inv _ _ _ _ _ Hco Hpk H) as (p & Hpp & [[_ ->]|[_ Hf]]); [done|].
    apply failed_frame in Hf as (_ & _ & -> & _). done.
  - destruct (op_ibc_timeout_inv _ _ _ _ Hco Hpk H) as (p & Hpp & Hf).
    apply failed_frame in Hf as (_ & _ & -> & _). done.
  - destruct (op_warp_send_inv c _ _ _ _ _ _ _ _ H) as (col & _ & _ & _ & _ & ->). done.
  - destruct (op_warp_recv_inv _ _ _ _ _ _ Hbl H) as (col & _ & _ & _ & _ & _ & ->). done.
Qed.
Lemma recipients_op c o s s' : chain_ok c -> winv c s -> exec c o s = Ok s' tt ->
  d_recipients (st_dollar s') = match o with OpSetYieldRecipient _ p id r => <[(p, id) := r]> (d_recipients (st_dollar s)) | _ => d_recipients (st_dollar s) end.
Proof.
  intros Hc W H. destruct (administrative o) eqn:Ha.
  { apply admin_inv in H; [|done]. destruct o; try discriminate; cbn in H; decompose [and] H; subst s'; done. }
  destruct (settings_op _ _ _ _ Hc W H Ha) as [Hd _ _]. unfold drest in Hd. destruct o; try discriminate; congruence.
Qed.

(** * C14 *)
Theorem delivery_authentic c s x bz : chain_ok c -> reachable c s -> step c s (OpDeliver x bz) <> s ->
  p_paused (st_portal s) = false /\
  exists v pr t m,
    c_vaa c bz = Some v /\ va_digest v ∉ x_vaas (st_world s) /\
    p_peers (st_portal s) !! va_chain v = Some pr /\ va_emitter v = pr_transceiver pr /\
    parse_transceiver (va_payload v) = POk t /\ sl_bytes (tp_source t) = pr_manager pr /\
    sl_bytes (tp_recipient t) = padded_manager c /\
    parse_manager (tp_manager t) = POk m /\
    match get_payload_type (mp_payload m) with
    | POk PTToken => exists k, decode_token_payload (mp_payload m) = POk k /\ tk_chain k = c_chain c /\
        sl_bytes (tk_token k) = raw_token c
    | POk PTIndex => exists i, decode_index_payload (mp_payload m) = POk (i, c_chain c)
    | POk PTUnknown => True
    | _ => False
    end.
Proof.
  intros Hc Hr Hne. destruct (step_cases c s (OpDeliver x bz)) as [|E]; [done|].
  destruct (deliver_inv' _ _ _ _ _ Hc (reach_w _ _ Hc Hr) E) as (v & pl & [A1 A2 A3 A4] & Hh).
  destruct A4 as (pr & t & m & ? & ? & ? & ? & ? & ? & ->).
  split; [done|]. exists v, pr, t, m. repeat (split; [done|]).
  destruct Hh as [Ht|i s1 Ht Hd _|k s1 Ht Hd ? ? _ _ _ _]; rewrite Ht; eauto.
Qed.
(** * C16 *)
Lemma vaas_grow c s l : chain_ok c -> winv c s -> x_vaas (st_world s) ⊆ x_vaas (st_world (run c s l)).
Proof.
  intros Hc. revert s. induction l as [|o l IH]; intros s W; [done|]. rewrite run_cons.
  destruct (step_cases c s o) as [E|E]; [rewrite E; auto|].
  etrans; [|apply IH; by eapply winv_step]. pose proof (vaas_op _ _ _ _ Hc W E) as H.
  destruct o; try (by rewrite H). destruct H as (v & _ & _ & ->). set_solver.
Qed.
Theorem delivered_once c s s' x bz v l x' bz' v' : chain_ok c -> reachable c s ->
  exec c (OpDeliver x bz) s = Ok s' tt -> c_vaa c bz = Some v ->
  c_vaa c bz' = Some v' -> va_digest v' = va_digest v ->
  rejected c (run c s' l) (OpDeliver x' bz') /\ run c s' (l ++ [OpDeliver x' bz']) = run c s' l.
Proof.
  intros Hc Hr E Hv Hv' Hd. pose proof (winv_reachable _ _ Hc Hr) as W.
  pose proof (winv_step _ _ _ _ Hc W E) as W'.
  pose proof (vaas_op _ _ _ _ Hc W E) as (v0 & Hv0 & _ & Hx). assert (v0 = v) as -> by congruence.
  pose proof (vaas_grow c s' l Hc W') as Hsub.
  assert (R : rejected c (run c s' l) (OpDeliver x' bz')).
  { unfold rejected. destruct (exec c (OpDeliver x' bz') (run c s' l)) as [s2 []| |] eqn:E2; try done.
    pose proof (vaas_op _ _ _ _ Hc (winv_run _ _ l Hc W') E2) as (v1 & Hv1 & Hn & _).
    assert (v1 = v') as -> by congruence. apply Hn. rewrite Hd. apply Hsub. rewrite Hx. set_solver. }
  split; [done|]. rewrite run_snoc. unfold rejected, step in *. by destruct (exec c (OpDeliver x' bz') (run c s' l)).
Qed.

(** * C19 *)
Theorem nonce_steps c s o s' : chain_ok c -> reachable c s -> exec c o s = Ok s' tt ->
  match o with
  | OpTransfer _ _ _ _ _ _ => p_nonce (st_portal s') = (p_nonce (st_portal s) + 1) mod 2 ^ 32 /\
      posted_nonces s' = posted_nonces s ++ [p_nonce (st_portal s)]
  | _ => p_nonce (st_portal s') = p_nonce (st_portal s) /\ posted_nonces s' = posted_nonces s
  end.
Proof.
  intros Hc Hr E. pose proof (winv_reachable _ _ Hc Hr) as W.
  pose proof (posted_op _ _ _ _ Hc W E) as P. unfold posted_nonces.
  assert (N : p_nonce (st_portal s') = nonce_step o s).
  { destruct (administrative o) eqn:Ha.
    - apply admin_inv in E; [|done]. destruct o; try discriminate; cbn in E; decompose [and] E; subst s'; done.
    - destruct (settings_op _ _ _ _ Hc W E Ha) as [_ _ ->]. done. }
  rewrite N. destruct o; cbn [nonce_step]; try (by rewrite P).
  destruct P as [m ->]. rewrite fmap_app. done.
Qed.
Definition nonce_seq (n0 : Z) (k : nat) : list Z := (fun j => (n0 + Z.of_nat j) mod 2 ^ 32) <$> seq 0 k.
Lemma nonce_seq_S n0 k : nonce_seq n0 (S k) = nonce_seq n0 k ++ [(n0 + Z.of_nat k) mod 2 ^ 32].
Proof. unfold nonce_seq. rewrite seq_S, fmap_app. done. Qed.
Lemma nonce_seq_nodup n0 k : Z.of_nat k <= 2 ^ 32 -> NoDup (nonce_seq n0 k).
Proof.
  intros Hk. unfold nonce_seq. apply NoDup_fmap_2_strong; [|apply NoDup_seq].
  intros i j Hi Hj H. apply elem_of_seq in Hi, Hj. cbn beta in H.
  assert (Hm : (2 ^ 32 : Z) = 4294967296) by done. rewrite Hm in *. clear Hm.
  assert (Z.of_nat i = Z.of_nat j); [|lia].
  pose proof (Z.div_mod (n0 + Z.of_nat i) 4294967296 ltac:(lia)). pose proof (Z.div_mod (n0 + Z.of_nat j) 4294967296 ltac:(lia)).
  rewrite H in *. nia.
Qed.
Lemma nonces_run c s0 l : chain_ok c -> fresh c s0 ->
  exists k, Z.of_nat k = transfers c s0 l /\ posted_nonces (run c s0 l) = nonce_seq (p_nonce (st_portal s0)) k /\
    p_nonce (st_portal (run c s0 l)) = (p_nonce (st_portal s0) + Z.of_nat k) mod 2 ^ 32.
Proof.
  intros Hc Hf. unfold transfers.
  pose proof (count_rel (fun _ o => match o with OpTransfer _ _ _ _ _ _ => 1 | _ => 0 end) c
    (fun z s => reachable c s /\ exists k, Z.of_nat k = z /\ posted_nonces s = nonce_seq (p_nonce (st_portal s0)) k /\
      p_nonce (st_portal s) = (p_nonce (st_portal s0) + Z.of_nat k) mod 2 ^ 32) Hc) as R.
  edestruct R as [_ (k & Hk & H)]; [| | |exists k; split; [rewrite Hk; apply Z.add_0_l|exact H]].
  - intros s s' o z W (Hr & k & <- & Hp & Hn) E. split; [by eapply reachable_step|].
    pose proof (nonce_steps _ _ _ _ Hc Hr E) as N.
    destruct o; try (exists k; rewrite Z.add_0_r; destruct N as [-> ->]; done).
    exists (S k). destruct N as [N1 N2]. split; [lia|]. rewrite N2, nonce_seq_S, Hp, <- Hn. split; [done|].
    rewrite N1, Hn. rewrite Zplus_mod_idemp_l. f_equal. lia.
  - by apply winv_fresh.
  - split; [by exists s0, []|]. exists 0%nat. split; [done|]. unfold posted_nonces. rewrite (fresh_posted _ _ Hf).
    split; [done|]. rewrite Z.mod_small; [lia|]. pose proof (fresh_nonce _ _ Hf). lia.
Qed.
Theorem nonces_unique c s0 l : chain_ok c -> fresh c s0 -> transfers c s0 l <= 2 ^ 32 ->
  NoDup (posted_nonces (run c s0 l)) /\ Z.of_nat (length (posted_nonces (run c s0 l))) = transfers c s0 l.
Proof.
  intros Hc Hf Ht. destruct (nonces_run c s0 l Hc Hf) as (k & Hk & -> & _). rewrite <- Hk in Ht |- *.
  split; [by apply nonce_seq_nodup|]. unfold nonce_seq. by rewrite fmap_length, seq_length.
Qed.

(** * C23 *)
Theorem portal_owner_only c s o : chain_ok c -> reachable c s ->
  portal_settings (step c s o) <> portal_settings s ->
  p_owner (st_portal s) <> ""%string /\
  ((exists b, o = OpPortalSetPaused (p_owner (st_portal s)) b) \/
   (exists chain t m, o = OpSetPeer (p_owner (st_portal s)) chain t m) \/
   (exists chain tok b, o = OpSetBridgingPath (p_owner (st_portal s)) chain tok b) \/
   (exists n, o = OpTransferOwnership (p_owner (st_portal s)) n)).
Proof.
  intros Hc Hr Hne. destruct (step_cases c s o) as [E|E]; [by rewrite E in Hne|].
  pose proof (winv_reachable _ _ Hc Hr) as W. destruct (administrative o) eqn:Ha.
  - apply admin_inv in E; [|done]. revert Hne. generalize (step c s o), E. clear E. intros s' E Hne.
    destruct o; try discriminate; cbn in E; decompose [and] E; subst; try done; split; eauto 10.
  - destruct (settings_op _ _ _ _ Hc W E Ha) as [_ _ H]. unfold portal_settings in Hne. by rewrite H in Hne.
Qed.
Theorem portal_exact c s s' : 
  (forall g b, exec c (OpPortalSetPaused g b) s = Ok s' tt ->
     only_portal s s' (mk_portal (p_owner (st_portal s)) b (p_peers (st_portal s)) (p_paths (st_portal s)) (p_nonce (st_portal s)))) /\
  (forall g chain t m, exec c (OpSetPeer g chain t m) s = Ok s' tt ->
     only_portal s s' (mk_portal (p_owner (st_portal s)) (p_paused (st_portal s)) (<[chain := mk_peer t m]> (p_peers (st_portal s)))
       (p_paths (st_portal s)) (p_nonce (st_portal s)))) /\
  (forall g chain tok b, exec c (OpSetBridgingPath g chain tok b) s = Ok s' tt ->
     only_portal s s' (mk_portal (p_owner (st_portal s)) (p_paused (st_portal s)) (p_peers (st_portal s))
       (<[(chain, tok) := b]> (p_paths (st_portal s))) (p_nonce (st_portal s)))) /\
  (forall g n, exec c (OpTransferOwnership g n) s = Ok s' tt ->
     only_portal s s' (mk_portal n (p_paused (st_portal s)) (p_peers (st_portal s)) (p_paths (st_portal s)) (p_nonce (st_portal s))) /\
     is_Some (c_dec c n) /\ n <> p_owner (st_portal s)).
Proof.
  repeat split; intros.
  - apply admin_inv in H; [|done]. cbn in H. decompose [and] H. by subst s'.
  - apply admin_inv in H; [|done]. cbn in H. decompose [and] H. by subst s'.
  - apply admin_inv in H; [|done]. cbn in H. decompose [and] H. by subst s'.
  - apply admin_inv in H; [|done]. cbn in H. decompose [and] H. by subst s'.
  - apply admin_inv in H; [|done]. cbn in H. by decompose [and] H.
  - apply admin_inv in H; [|done]. cbn in H. decompose [and] H. congruence.
Qed.
Theorem portal_rejects_others c s g : g <> p_owner (st_portal s) \/ p_owner (st_portal s) = ""%string ->
  (forall b, rejected c s (OpPortalSetPaused g b)) /\ (forall chain t m, rejected c s (OpSetPeer g chain t m)) /\
  (forall chain tok b, rejected c s (OpSetBridgingPath g chain tok b)) /\ (forall n, rejected c s (OpTransferOwnership g n)).
Proof.
  intros Hg. unfold rejected. repeat split; intros; destruct (exec c _ s) as [s' []| |] eqn:E; try done;
    (apply admin_inv in E; [|done]; cbn in E; naive_solver).
Qed.

(** * C24 *)
Theorem authority_only c s o : chain_ok c -> reachable c s ->
  (d_paused (st_dollar (step c s o)) <> d_paused (st_dollar s) -> exists b, o = OpSetPaused (c_authority c) b) /\
  (v_paused (st_vaults (step c s o)) <> v_paused (st_vaults s) -> exists p, o = OpVaultsSetPaused (c_authority c) p) /\
  (d_recipients (st_dollar (step c s o)) <> d_recipients (st_dollar s) ->
     exists p id r, o = OpSetYieldRecipient (c_authority c) p id r).
Proof.
  intros Hc Hr. destruct (step_cases c s o) as [E|E]; [by rewrite E|].
  pose proof (winv_reachable _ _ Hc Hr) as W. destruct (administrative o) eqn:Ha.
  - apply admin_inv in E; [|done]. revert E. generalize (step c s o). intros s' E.
    destruct o; try discriminate; cbn in E; decompose [and] E; subst; repeat split; try done; eauto.
  - destruct (settings_op _ _ _ _ Hc W E Ha) as [H1 H2 _]. unfold drest in H1. injection H1 as -> ->. by rewrite H2.
Qed.
Theorem authority_exact c s s' :
  (forall g b, exec c (OpSetPaused g b) s = Ok s' tt -> g = c_authority c /\
     only_dollar s s' (mk_dollar b (d_index (st_dollar s)) (d_principal (st_dollar s)) (d_stats (st_dollar s))
       (d_ext_yield (st_dollar s)) (d_recipients (st_dollar s)) (d_retry (st_dollar s)))) /\
  (forall g p, exec c (OpVaultsSetPaused g p) s = Ok s' tt -> g = c_authority c /\ 0 <= p <= 3 /\
     only_vaults s s' (mk_vaults p (v_ended (st_vaults s)) (v_collector (st_vaults s)) (v_positions (st_vaults s))
       (v_total_flex (st_vaults s)) (v_rewards (st_vaults s)) (v_stats (st_vaults s)))) /\
  (forall g p id r, exec c (OpSetYieldRecipient g p id r) s = Ok s' tt -> g = c_authority c /\
     only_dollar s s' (mk_dollar (d_paused (st_dollar s)) (d_index (st_dollar s)) (d_principal (st_dollar s)) (d_stats (st_dollar s))
       (d_ext_yield (st_dollar s)) (<[(p, id) := r]> (d_recipients (st_dollar s))) (d_retry (st_dollar s)))).
Proof.
  repeat split; intros; (apply admin_inv in H; [|done]); cbn in H; decompose [and] H; try done; try lia; by subst s'.
Qed.

(** * C25 *)
Definition portal_wf (c : config) (s : state) : Prop :=
  (forall chain p, p_peers (st_portal s) !! chain = Some p ->
     chain <> 0 /\ chain <> c_chain c /\ wide_address (pr_transceiver p) /\ wide_address (pr_manager p)) /\
  (forall chain tok b, p_paths (st_portal s) !! (chain, tok) = Some b -> chain <> c_chain c /\ wide_address tok).
Lemma portal_wf_op c o s s' : chain_ok c -> winv c s -> portal_wf c s -> exec c o s = Ok s' tt -> portal_wf c s'.
Proof.
  intros Hc W [H1 H2] E. destruct (administrative o) eqn:Ha.
  - apply admin_inv in E; [|done].
    destruct o; try discriminate; cbn in E; decompose [and] E; subst; try done; split; cbn; try done.
    + intros ch p. rewrite lookup_insert_Some. intros [[<- <-]|[_ ?]]; [|eauto]. repeat split; done.
    + intros ch tk b. rewrite lookup_insert_Some. intros [[[= <- <-] <-]|[_ ?]]; [|eauto]. repeat split; done.
  - destruct (settings_op _ _ _ _ Hc W E Ha) as [_ _ H]. unfold portal_wf. by rewrite H.
Qed.
Theorem portal_well_formed c s : chain_ok c -> reachable c s -> portal_wf c s.
Proof.
  intros Hc Hr. apply (reachable_inv (portal_wf c) c s); auto.
  - intros s0 Hf. split; intros *; [rewrite (fresh_peers _ _ Hf)|rewrite (fresh_paths _ _ Hf)]; by rewrite lookup_empty.
  - intros. by eapply portal_wf_op.
Qed.

(** * C26 *)
Theorem portal_paused c s : p_paused (st_portal s) = true ->
  (forall x bz, rejected c s (OpDeliver x bz) /\ step c s (OpDeliver x bz) = s) /\
  (forall ps g chain tok rc amt, rejected c s (OpTransfer ps g chain tok rc amt) /\ step c s (OpTransfer ps g chain tok rc amt) = s).
Proof.
  intros Hp.
  assert (A : forall x bz, exec c (OpDeliver x bz) s = Err s EPaused).
  { intros. cbn [exec]. cbv [deliver bind gets fail]. by rewrite Hp. }
  assert (B : forall ps g chain tok rc amt, exists e, exec c (OpTransfer ps g chain tok rc amt) s = Err s e).
  { intros. cbn [exec]. cbv [signed transfer bind gets fail]. destruct (c_dec c g) as [[]|]; try rewrite Hp; eauto. }
  split; intros.
  - unfold rejected, step. by rewrite A.
  - destruct (B ps g chain tok rc amt) as [e E]. unfold rejected, step. by rewrite E.
Qed.

(** * C18 *)
Theorem path_configured c s0 l ps g chain tok rc amt : chain_ok c -> fresh c s0 ->
  succeeds c (run c s0 l) (OpTransfer ps g chain tok rc amt) = true ->
  exists l1 l2 owner b, l = l1 ++ OpSetBridgingPath owner chain tok b :: l2 /\
    succeeds c (run c s0 l1) (OpSetBridgingPath owner chain tok b) = true /\ owner = p_owner (st_portal (run c s0 l1)).
Proof.
  intros Hc Hf S. unfold succeeds in S.
  assert (P : is_Some (p_paths (st_portal (run c s0 l)) !! (chain, tok))).
  { destruct (exec c _ (run c s0 l)) as [s' []| |] eqn:E; try done.
    assert (W : winv c (run c s0 l)) by (by apply winv_run, winv_fresh).
    destruct (transfer_inv' _ _ _ _ _ _ _ _ _ (wf_module _ _ (wi_wfs _ _ W)) E)
      as (b & am & pr & sender & id & _ & _ & _ & _ & _ & _ & P & _). done. }
  clear S. induction l as [|o l IH] using rev_ind.
  - cbn in P. rewrite (fresh_paths _ _ Hf), lookup_empty in P. by destruct P.
  - rewrite run_snoc in P. set (s := run c s0 l) in *. assert (W : winv c s) by (by apply winv_run, winv_fresh).
    destruct (decide (is_Some (p_paths (st_portal s) !! (chain, tok)))) as [P'|P'].
    { destruct (IH P') as (l1 & l2 & ow & b & -> & ?). exists l1, (l2 ++ [o]), ow, b. by rewrite <- app_assoc. }
    destruct (step_cases c s o) as [E|E]; [by rewrite E in P|].
    destruct (administrative o) eqn:Ha.
    + pose proof E as E'. apply admin_inv in E'; [|done]. revert P.
      assert (So : succeeds c s o = true) by (unfold succeeds; by rewrite E).
      destruct o; try discriminate; cbn [admin_result] in E'; decompose [and] E';
        match goal with H : step _ _ _ = _ |- _ => rewrite H end; try done.
      cbn. rewrite lookup_insert_is_Some'. intros [[= <- <-]|?]; [|done].
      exists l, [], signer, supported. done.
    + destruct (settings_op _ _ _ _ Hc W E Ha) as [_ _ H]. by rewrite H in P.
Qed.

(** * C40 *)
Theorem usdn_refused c s ok p d : pk_data p = Some d -> ft_denom d = c_denom c ->
  d_recipients (st_dollar s) !! (IBC, pk_chan p) = None -> ics4_send_packet c ok p s = Err s EDisabledChannel.
Proof.
  intros Hp Hd Hr. unfold ics4_send_packet, bind, gets. rewrite Hp. rewrite bool_decide_true by done.
  unfold has_recipient. by rewrite Hr.
Qed.
Theorem others_pass c s ok p : (forall d, pk_data p = Some d -> ft_denom d <> c_denom c) \/
    is_Some (d_recipients (st_dollar s) !! (IBC, pk_chan p)) ->
  ics4_send_packet c ok p s =
    if ok then Ok (s <| st_world; x_inflight := x_inflight (st_world s) ++ [p] |>) tt else Err s EExternal.
Proof.
  intros H. unfold ics4_send_packet, bind, gets. destruct (pk_data p) as [d|].
  - destruct H as [H|H].
    + rewrite bool_decide_false by (by apply H). by destruct ok.
    + unfold has_recipient. rewrite (bool_decide_true _ H), andb_false_r. by destruct ok.
  - by destruct ok.
Qed.
Definition sent_ok (c : config) (s : state) (p : packet) : Prop :=
  is_usdn c p = true -> is_Some (d_recipients (st_dollar s) !! (IBC, pk_chan p)).

(** * C41 *)
Theorem recipient_set c s s' g p id r : exec c (OpSetYieldRecipient g p id r) s = Ok s' tt ->
  g = c_authority c /\ (p = IBC -> id ∈ x_channels (st_world s)) /\
  (p = HYPERLANE -> exists h d, c_hex c id = Some h /\ is_Some (x_tokens (st_world s) !! internal_id h) /\
      x_routers (st_world s) !! internal_id h = Some [d]) /\
  only_dollar s s' (mk_dollar (d_paused (st_dollar s)) (d_index (st_dollar s)) (d_principal (st_dollar s)) (d_stats (st_dollar s))
       (d_ext_yield (st_dollar s)) (<[(p, id) := r]> (d_recipients (st_dollar s))) (d_retry (st_dollar s))).
Proof. intros E. apply admin_inv in E; [|done]. cbn in E. destruct E as (? & ? & ? & ->). done. Qed.
