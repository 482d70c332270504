(** C63: which message touches which part of the state. *)
From Verif Require Import Spec Concrete PropsVaults PropsRewards PropsExt FrameP.

(** * C63 *)
Theorem C63_touched : forall c s o p, chain_ok c -> reachable c s -> ~ unchanged p s (step c s o) -> p ∈ touched o.
Proof. exact touched_only. Qed.
Print Assumptions C63_touched.

(** Messages of one kind. *)
Definition kind (o : op) : nat :=
  match o with
  | OpTime _ => 0 | OpClaimYield _ => 1 | OpSetPaused _ _ => 2 | OpSetYieldRecipient _ _ _ _ => 3 | OpLock _ _ _ => 4
  | OpUnlock _ _ _ => 5 | OpVaultsSetPaused _ _ => 6 | OpDeliver _ _ => 7 | OpTransfer _ _ _ _ _ _ => 8
  | OpPortalSetPaused _ _ => 9 | OpSetPeer _ _ _ _ => 10 | OpSetBridgingPath _ _ _ _ => 11 | OpTransferOwnership _ _ => 12
  | OpSend _ _ _ => 13 | OpMultiSend _ _ => 14 | OpIbcSend _ _ _ _ _ => 15 | OpIbcSendOther _ _ => 16 | OpIbcRecv _ _ _ => 17
  | OpIbcAck _ _ => 18 | OpIbcTimeout _ => 19 | OpChannelOpen _ => 20 | OpWarpSend _ _ _ _ _ _ => 21 | OpWarpRecv _ _ _ => 22
  | OpWarpToken _ => 23 | OpWarpRouters _ _ => 24 | OpEndSeason _ => 25
  end%nat.

(** Every entry of the table is needed: some message of that kind, in some reachable
    state, changes that part. *)
Definition one_channel : list op := ops1 ++ [OpChannelOpen "channel-0"; OpSetYieldRecipient authority IBC "channel-0" "remote"].
Definition one_packet : list op := one_channel ++ [OpIbcSend XOk bob "channel-0" "friend" 10].
Definition one_token : list op := ops1 ++ [OpWarpToken tokA; OpWarpRouters tokA [1]].
Definition yield_out : list op := ops5 ++ [reindex 31 1100000000000].
Definition word : bytes := replicate 32 Byte.x66.
Definition witness (o : op) (p : part) : list op * op :=
  match o with
  | OpTime _ => (ops1, OpTime 5)
  | OpEndSeason _ => (ops1, OpEndSeason carol)
  | OpClaimYield _ => (ops1 ++ [reindex 3 1100000000000], OpClaimYield alice0)
  | OpSetPaused _ _ => (ops1, OpSetPaused authority true)
  | OpSetYieldRecipient _ _ _ _ => (ops1 ++ [OpChannelOpen "channel-0"], OpSetYieldRecipient authority IBC "channel-0" "remote")
  | OpLock _ _ _ => (ops1, OpLock alice0 FLEXIBLE (Some 200))
  | OpUnlock _ _ _ => (ops4, OpUnlock alice0 FLEXIBLE (Some 1200))
  | OpVaultsSetPaused _ _ => (ops1, OpVaultsSetPaused authority 2)
  | OpDeliver _ _ =>
    match p with
    | PRewards => (ops4, reindex 31 1900000000000)
    | PRetry => (ops5, OpDeliver nohyp (index_vaa 31 1100000000000))
    | PPrincipal | PHolders => (ops5, issue 31 carol 5 1100000000000)
    | _ => (ops5, reindex 31 1100000000000)
    end
  | OpTransfer _ _ _ _ _ _ => (ops1, OpTransfer true bob0 2 eth_token word (Some 500000))
  | OpPortalSetPaused _ _ => (ops1, OpPortalSetPaused owner0 true)
  | OpSetPeer _ _ _ _ => (ops1, OpSetPeer owner0 3 eth_transceiver eth_manager)
  | OpSetBridgingPath _ _ _ _ => (ops1, OpSetBridgingPath owner0 3 word true)
  | OpTransferOwnership _ _ => (ops1, OpTransferOwnership owner0 (enc0 alice))
  | OpSend _ _ _ => (ops1, OpSend alice carol 10)
  | OpMultiSend _ _ => (ops1, OpMultiSend alice [(carol, 10)])
  | OpIbcSend _ _ _ _ _ => (one_channel, OpIbcSend XOk bob "channel-0" "friend" 10)
  | OpIbcSendOther _ _ => (ops1, OpIbcSendOther true (mk_packet "icahost" "channel-9" None))
  | OpIbcRecv _ _ _ => (one_packet, OpIbcRecv "channel-0" (enc0 carol) 5)
  | OpIbcAck _ _ =>
    match p with
    | PRetry => (yield_out, OpIbcAck 1 (AckError))
    | PArrived => (one_packet, OpIbcAck 0 AckResult)
    | _ => (one_packet, OpIbcAck 0 AckError)
    end
  | OpIbcTimeout _ => match p with PRetry => (yield_out, OpIbcTimeout 1) | _ => (one_packet, OpIbcTimeout 0) end
  | OpChannelOpen _ => (ops1, OpChannelOpen "channel-0")
  | OpWarpSend _ _ _ _ _ _ => (one_token, OpWarpSend XOk alice tokA 1 word 1000)
  | OpWarpRecv _ _ _ => (ops5, OpWarpRecv tokA carol 5)
  | OpWarpToken _ => (ops1, OpWarpToken tokA)
  | OpWarpRouters _ _ => (one_token, OpWarpRouters tokA [1; 2])
  end.

Global Instance position_eq_dec : EqDecision position.
Proof. solve_decision. Defined.
Global Instance reward_eq_dec : EqDecision reward.
Proof. solve_decision. Defined.
Global Instance vstats_eq_dec : EqDecision vstats.
Proof. solve_decision. Defined.
Global Instance peer_eq_dec : EqDecision peer.
Proof. solve_decision. Defined.
Global Instance ftdata_eq_dec : EqDecision ftdata.
Proof. solve_decision. Defined.
Global Instance packet_eq_dec : EqDecision packet.
Proof. solve_decision. Defined.
Global Instance hypmsg_eq_dec : EqDecision hypmsg.
Proof. solve_decision. Defined.
(** Some accounts to compare. *)
Definition accounts : list addr := [alice; bob; carol; YieldA].
Definition same_on (f g : addr -> Z) : bool := forallb (fun a => f a =? g a) accounts.
Lemma same_on_complete f g : (forall a, f a = g a) -> same_on f g = true.
Proof. intros H. apply forallb_forall. intros a _. rewrite H. apply Z.eqb_refl. Qed.
(** The comparison of a part, as a program. *)
Definition same_part (p : part) (s s' : state) : bool :=
  match p with
  | PBalances => same_on (bal s') (bal s)
  | PSupply => bool_decide (supply s' = supply s)
  | PDollarPaused => bool_decide (d_paused (st_dollar s') = d_paused (st_dollar s))
  | PIndex => bool_decide (current_index s' = current_index s)
  | PPrincipal => same_on (prin s') (prin s)
  | PHolders => bool_decide (ds_holders (d_stats (st_dollar s')) = ds_holders (d_stats (st_dollar s)))
  | PYieldAccrued => bool_decide (ds_yield (d_stats (st_dollar s')) = ds_yield (d_stats (st_dollar s)))
  | PExternalYield => bool_decide (d_ext_yield (st_dollar s') = d_ext_yield (st_dollar s))
  | PYieldRecipients => bool_decide (d_recipients (st_dollar s') = d_recipients (st_dollar s))
  | PRetry => bool_decide (d_retry (st_dollar s') = d_retry (st_dollar s))
  | POwner => bool_decide (p_owner (st_portal s') = p_owner (st_portal s))
  | PPortalPaused => bool_decide (p_paused (st_portal s') = p_paused (st_portal s))
  | PPeers => bool_decide (p_peers (st_portal s') = p_peers (st_portal s))
  | PPaths => bool_decide (p_paths (st_portal s') = p_paths (st_portal s))
  | PNonce => bool_decide (p_nonce (st_portal s') = p_nonce (st_portal s))
  | PVaultsPaused => bool_decide (v_paused (st_vaults s') = v_paused (st_vaults s))
  | PSeasonEnded => bool_decide (v_ended (st_vaults s') = v_ended (st_vaults s))
  | PCollector => bool_decide (v_collector (st_vaults s') = v_collector (st_vaults s))
  | PPositions => bool_decide (v_positions (st_vaults s') = v_positions (st_vaults s))
  | PFlexiblePrincipal => bool_decide (v_total_flex (st_vaults s') = v_total_flex (st_vaults s))
  | PRewards => bool_decide (v_rewards (st_vaults s') = v_rewards (st_vaults s))
  | PVaultStats => bool_decide (v_stats (st_vaults s') = v_stats (st_vaults s))
  | PTime => bool_decide (x_now (st_world s') = x_now (st_world s))
  | PConsumed => bool_decide (x_vaas (st_world s') = x_vaas (st_world s))
  | PPosted => bool_decide (x_posted (st_world s') = x_posted (st_world s))
  | PChannels => bool_decide (x_channels (st_world s') = x_channels (st_world s))
  | PInFlight => bool_decide (x_inflight (st_world s') = x_inflight (st_world s))
  | PArrived => bool_decide (x_acked (st_world s') = x_acked (st_world s))
  | PCollateral => bool_decide (x_tokens (st_world s') = x_tokens (st_world s))
  | PRoutes => bool_decide (x_routers (st_world s') = x_routers (st_world s))
  | PDispatched => bool_decide (x_dispatched (st_world s') = x_dispatched (st_world s))
  end.
Lemma same_part_complete p s s' : unchanged p s s' -> same_part p s s' = true.
Proof.
  destruct p; cbn [unchanged same_part]; intros H; try (apply (bool_decide_eq_true_2 _); exact H); apply same_on_complete; apply H.
Qed.
(** All entries of the table at once. *)
Definition changes (o : op) (p : part) : bool :=
  let s := run cfg0 init0 (witness o p).1 in negb (same_part p s (step cfg0 s (witness o p).2)).
Definition table_ok (o : op) : bool := forallb (changes o) (touched o).
Theorem C63_tight : forall o p, p ∈ touched o ->
  exists c s o', chain_ok c /\ reachable c s /\ kind o' = kind o /\ ~ unchanged p s (step c s o').
Proof.
  intros o p Hp. exists cfg0, (run cfg0 init0 (witness o p).1), (witness o p).2.
  split; [exact chain0_ok|]. split; [apply reach0|].
  split; [destruct o; try reflexivity; destruct p; reflexivity|].
  assert (H : table_ok o = true) by (destruct o; vm_compute; reflexivity).
  apply elem_of_list_In in Hp. unfold table_ok in H. rewrite forallb_forall in H. apply H in Hp. unfold changes in Hp.
  intros Hu. apply same_part_complete in Hu. rewrite Hu in Hp. discriminate Hp.
Qed.
Print Assumptions C63_tight.
(** A delivery that raises the index changes balances and the index, and neither the
    vault positions nor the settings. *)
Example C63_touched_ex :
  let s := run cfg0 init0 ops4 in let s' := step cfg0 s (reindex 31 1900000000000) in
  reachable cfg0 s /\ current_index s < current_index s' /\ bal s YieldA < bal s' YieldA /\
  stake s' alice STAKED = stake s alice STAKED /\ 0 < stake s alice STAKED /\
  same_part PPositions s s' = true /\ same_part PPeers s s' = true /\ same_part PCollector s s' = true.
Proof. split; [apply reach0|]. vm_compute. repeat split; reflexivity. Qed.
