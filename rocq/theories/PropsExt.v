(** C38-C40: yield of other chains. *)
From Verif Require Import Spec Concrete ExtP.

(** A channel with 200000 of alice's dollars in escrow and two hyperlane tokens with
    100000 and 50000 of collateral, all three with a yield recipient. *)
Definition pad24 : string := "000000000000000000000000".
Definition idA : string := pad24 ++ "0000000A".
Definition idB : string := pad24 ++ "0000000B".
Definition rcA : string := pad24 ++ "recipntA".
Definition rcB : string := pad24 ++ "recipntB".
Definition tokA : Z := be_decode (bytes_of_string "0000000A").
Definition tokB : Z := be_decode (bytes_of_string "0000000B").
Definition ops_ext : list op :=
  [OpChannelOpen "channel-0"; OpSetYieldRecipient authority IBC "channel-0" "remote";
   OpIbcSend XOk alice "channel-0" "friend" 200000;
   OpWarpToken tokA; OpWarpToken tokB; OpWarpRouters tokA [1]; OpWarpRouters tokB [2];
   OpSetYieldRecipient authority HYPERLANE idA rcA; OpSetYieldRecipient authority HYPERLANE idB rcB;
   OpWarpSend XOk alice tokA 1 (replicate 32 Byte.x01) 100000; OpWarpSend XOk bob tokB 2 (replicate 32 Byte.x02) 50000].
Definition ops5 : list op := ops1 ++ ops_ext.
Definition st5 : state := run cfg0 init0 ops5.
Lemma reach5 : reachable cfg0 st5.
Proof. exact (reach0 ops5). Qed.
Definition nohyp : oracle := mk_oracle (fun _ => XOk) (fun id => if decide (id = idA) then XReject else XOk).

(** * C38 *)
Theorem C38_ledger : forall c s ch, chain_ok c -> reachable c s ->
  external_of s IBC ch = retry_of s IBC ch + yield_sent c s ch /\ 0 <= retry_of s IBC ch.
Proof. exact ibc_ledger. Qed.
Print Assumptions C38_ledger.
Theorem C38_failed : forall c s s' n o, chain_ok c -> reachable c s -> o = OpIbcTimeout n \/ o = OpIbcAck n AckError ->
  exec c o s = Ok s' tt ->
  exists p, x_inflight (st_world s) !! n = Some p /\ x_inflight (st_world s') = delete n (x_inflight (st_world s)) /\
    (forall k, retry_of s' k.1 k.2 = retry_of s k.1 k.2 + (if decide (k = (IBC, pk_chan p)) then yield_carried c (pk_chan p) p else 0)) /\
    forall k, external_of s' k.1 k.2 = external_of s k.1 k.2.
Proof. exact packet_failed. Qed.
Print Assumptions C38_failed.
Theorem C38_acknowledged : forall c s s' n, chain_ok c -> reachable c s -> exec c (OpIbcAck n AckResult) s = Ok s' tt ->
  exists p, x_inflight (st_world s) !! n = Some p /\ x_inflight (st_world s') = delete n (x_inflight (st_world s)) /\
    x_acked (st_world s') = x_acked (st_world s) ++ [p] /\ st_dollar s' = st_dollar s /\ st_bank s' = st_bank s.
Proof. exact packet_acked. Qed.
Print Assumptions C38_acknowledged.
(** An index update sends 19999 of yield behind alice's packet. Its timeout makes it a
    retry amount, while the failure of alice's packet adds nothing. The next update
    sends the retry amount together with the new yield. *)
(** An index update sends 20000 of yield behind alice's packet. Its timeout makes it a
    retry amount, while the failure of alice's packet adds nothing. The next update
    sends the retry amount together with the new yield. *)
Example C38_ledger_ex : reachable cfg0 st5 /\
  let s1 := after st5 (reindex 31 1100000000000) in
  let s2 := after s1 (OpIbcTimeout 1) in
  let s3 := after s2 (OpIbcTimeout 0) in
  let s4 := after s2 (reindex 32 1200000000000) in
  external_of s1 IBC "channel-0" = 20000 /\ yield_sent cfg0 s1 "channel-0" = 20000 /\ retry_of s1 IBC "channel-0" = 0 /\
  retry_of s2 IBC "channel-0" = 20000 /\ yield_sent cfg0 s2 "channel-0" = 0 /\
  retry_of s3 IBC "channel-0" = 20000 /\ bal s3 alice = bal s2 alice + 200000 /\
  external_of s4 IBC "channel-0" = 40000 /\ yield_sent cfg0 s4 "channel-0" = 40000 /\ retry_of s4 IBC "channel-0" = 0.
Proof. split; [apply reach5|]. vm_compute. auto 20. Qed.
Example C38_failed_ex :
  let s1 := after st5 (reindex 31 1100000000000) in
  succeeds cfg0 s1 (OpIbcAck 1 AckError) = true /\ succeeds cfg0 s1 (OpIbcTimeout 1) = true /\
  retry_of (after s1 (OpIbcAck 1 AckError)) IBC "channel-0" = 20000.
Proof. vm_compute. auto. Qed.
Example C38_acknowledged_ex :
  let s1 := after st5 (reindex 31 1100000000000) in
  succeeds cfg0 s1 (OpIbcAck 1 AckResult) = true /\ yield_sent cfg0 (after s1 (OpIbcAck 1 AckResult)) "channel-0" = 20000.
Proof. vm_compute. auto. Qed.

(** The callbacks of the middleware by themselves, for any packet in any state *)
Lemma callback_retry c p s s' : on_timeout c p s = Ok s' tt \/ on_ack c p AckError s = Ok s' tt ->
  exists d z, pk_data p = Some d /\ ft_amount d = Some z /\
    forall q id, retry_of s' q id = retry_of s q id +
      (if decide ((q, id) = (IBC, pk_chan p) /\ ft_denom d = c_denom c /\ ft_sender d = c_enc c (AEscrow (pk_port p) (pk_chan p))) then z else 0).
Proof.
  intros H. assert (E : (add_amount_to_retry c p;;; refund c p) s = Ok s' tt) by (destruct H; done). clear H.
  apply bind_ok in E as (s1 & [] & E1 & E2). unfold add_amount_to_retry in E1. unfold refund in E2.
  destruct (pk_data p) as [d|]; [|discriminate]. destruct (ft_amount d) as [z|] eqn:Ez; [|by destruct (bool_decide _), (bool_decide _)].
  exists d, z. split; [done|]. split; [done|]. destruct (c_dec c (ft_sender d)) as [a|]; [|discriminate].
  assert (H2 : forall q id, retry_of s' q id = retry_of s1 q id).
  { destruct (bool_decide (ft_denom d = c_denom c)); [|by injection E2 as ->].
    apply bind_ok in E2 as (s2 & amt & En & E2). unfold new_coins in En. destruct (z <? 0); [discriminate|]. injection En as <- <-. destruct (decide (z = 0)) as [->|Hz].
    - unfold send_coins in E2. cbn in E2. by injection E2 as ->.
    - revert E2. apply (wp_ok _ _ (fun s' _ => forall q id, retry_of s' q id = retry_of s1 q id) top2).
      eapply wp_mono; [by apply send_coins_cases| |]; cbn beta; [|done]. intros s2 [] (_ & _ & ->). done. }
  intros q id. rewrite H2. destruct (bool_decide_reflect (ft_denom d = c_denom c)) as [Hd|Hd]; cbn [negb] in E1.
  2:{ injection E1 as ->. rewrite decide_False by tauto. lia. }
  destruct (bool_decide_reflect (ft_sender d = c_enc c (AEscrow (pk_port p) (pk_chan p)))) as [Hs|Hs]; cbn [negb] in E1.
  2:{ injection E1 as ->. rewrite decide_False by tauto. lia. }
  assert (E3 : s1 = add_retry s (IBC, pk_chan p) z).
  { revert E1. apply (wp_ok _ _ (fun s1 _ => s1 = add_retry s (IBC, pk_chan p) z) top2). by apply increment_retry_spec. }
  subst s1. unfold retry_of. cbn.
  change (default 0 (addz (IBC, pk_chan p) z (d_retry (st_dollar s)) !! (q, id))) with (mget (addz (IBC, pk_chan p) z (d_retry (st_dollar s))) (q, id)).
  rewrite mget_addz. change (mget (d_retry (st_dollar s)) (q, id)) with (default 0 (d_retry (st_dollar s) !! (q, id))).
  repeat case_decide; try lia; tauto.
Qed.
Theorem C38_callback : forall c p s s', on_timeout c p s = Ok s' tt \/ on_ack c p AckError s = Ok s' tt ->
  exists d z, pk_data p = Some d /\ ft_amount d = Some z /\
    forall q id, retry_of s' q id = retry_of s q id +
      (if decide ((q, id) = (IBC, pk_chan p) /\ ft_denom d = c_denom c /\ ft_sender d = c_enc c (AEscrow (pk_port p) (pk_chan p))) then z else 0).
Proof. exact callback_retry. Qed.
Print Assumptions C38_callback.
(** The same data on another port is not yield: there the sender is just an account. *)
Example C38_callback_ex :
  let s1 := after st5 (reindex 31 1100000000000) in
  let at_port p q := mk_packet q (pk_chan p) (pk_data p) in
  let retried m := match m s1 with Ok s' tt => Some (retry_of s' IBC "channel-0") | _ => None end in
  match x_inflight (st_world s1) !! 1%nat with
  | Some p => retried (on_timeout cfg0 (at_port p transfer_port)) = Some 20000 /\
              retried (add_amount_to_retry cfg0 (at_port p "other")) = Some 0
  | None => False
  end.
Proof. vm_compute. auto. Qed.

(** * C39 *)
Theorem C39_split : forall c s s' x bz i, chain_ok c -> reachable c s ->
  (v_ended (st_vaults s) = true -> v_collector (st_vaults s) <> WarpA) ->
  carried_index c bz = Some i -> exec c (OpDeliver x bz) s = Ok s' tt ->
  bal s' WarpA = bal s WarpA + warp_yield s i /\
  sum_routes s (route_share c s (warp_yield s i)) <= warp_yield s i /\
  exists new, x_dispatched (st_world s') = x_dispatched (st_world s) ++ new /\
  forall id rc, d_recipients (st_dollar s) !! (HYPERLANE, id) = Some rc ->
    let q := route_share c s (warp_yield s i) id in
    external_of s' HYPERLANE id = external_of s HYPERLANE id + q /\
    (retry_of s' HYPERLANE id = retry_of s HYPERLANE id + q \/
     retry_of s' HYPERLANE id = 0 /\ exists h d r, c_hex c id = Some h /\ c_hex c rc = Some r /\
       x_routers (st_world s) !! be_decode (drop 24 h) = Some [d] /\
       mk_hypmsg WarpA (be_decode (drop 24 h)) d r (retry_of s HYPERLANE id + q) ∈ new).
Proof. exact hyp_split. Qed.
Print Assumptions C39_split.
(** 15000 of yield over collaterals 100000 and 50000: 9999 and 4999. The first
    dispatch fails in [nohyp] and is kept for the next update. *)
Example C39_split_ex : reachable cfg0 st5 /\ v_ended (st_vaults st5) = false /\
  carried_index cfg0 (index_vaa 31 1100000000000) = Some 1100000000000 /\
  warp_yield st5 1100000000000 = 15000 /\
  route_share cfg0 st5 15000 idA = 9999 /\ route_share cfg0 st5 15000 idB = 4999 /\
  let s1 := after st5 (OpDeliver nohyp (index_vaa 31 1100000000000)) in
  let s2 := after s1 (reindex 32 1200000000000) in
  bal s1 WarpA = 165000 /\ external_of s1 HYPERLANE idA = 9999 /\ retry_of s1 HYPERLANE idA = 9999 /\
  external_of s1 HYPERLANE idB = 4999 /\ retry_of s1 HYPERLANE idB = 0 /\ hyp_dispatched s1 tokB = 4999 /\
  hyp_dispatched s2 tokA = hyp_external cfg0 s2 tokA /\ retry_of s2 HYPERLANE idA = 0.
Proof. split; [apply reach5|]. vm_compute. auto 20. Qed.

(** Yield can be lost: the message that mints tokens ignores a failing index update but
    keeps its writes, and the retry amount is removed before the router is looked
    up. Here the token got a second router after a dispatch failed. *)
Definition ops_lost : list op := ops5 ++
  [OpDeliver nohyp (index_vaa 31 1100000000000); OpWarpRouters tokA [1; 3]; issue 32 bob 1000 1200000000000].
Theorem C39_ledger_refuted : exists c s tok, chain_ok c /\ reachable c s /\
  hyp_external c s tok <> hyp_retry c s tok + hyp_dispatched s tok.
Proof.
  exists cfg0, (run cfg0 init0 ops_lost), tokA. split; [apply chain0_ok|]. split; [apply reach0|]. vm_compute. discriminate.
Qed.
Print Assumptions C39_ledger_refuted.
Example C39_ledger_refuted_ex : let s := run cfg0 init0 ops_lost in
  hyp_external cfg0 s tokA = 9999 /\ hyp_retry cfg0 s tokA = 0 /\ hyp_dispatched s tokA = 0.
Proof. vm_compute. auto. Qed.
(** Missing from the full statement: equality for every message. It holds for every
    message except one that mints tokens while some route cannot be used, and in
    all histories whose routes are always usable. The inequality always holds. *)
Theorem C39_ledger_partial : forall c s tok, chain_ok c -> reachable c s ->
  hyp_retry c s tok + hyp_dispatched s tok <= hyp_external c s tok.
Proof. exact hyp_ledger. Qed.
Print Assumptions C39_ledger_partial.
Theorem C39_step_partial : forall c s s' o tok, chain_ok c -> reachable c s -> exec c o s = Ok s' tt ->
  match o with OpDeliver _ bz => routes_ready c s \/ is_Some (carried_index c bz) | _ => True end ->
  hyp_external c s' tok - hyp_external c s tok = hyp_retry c s' tok - hyp_retry c s tok + (hyp_dispatched s' tok - hyp_dispatched s tok).
Proof. exact hyp_ledger_step. Qed.
Print Assumptions C39_step_partial.
Theorem C39_ready_partial : forall c s0 ops tok, chain_ok c -> fresh c s0 -> Forall (routes_ready c) (history c s0 ops) ->
  let s := run c s0 ops in hyp_external c s tok = hyp_retry c s tok + hyp_dispatched s tok.
Proof. exact hyp_ledger_ready. Qed.
Print Assumptions C39_ready_partial.
(** The routes of [st5] are ready. *)
Example C39_ready_partial_ex : routes_ready cfg0 st5 /\ reachable cfg0 st5 /\
  let s := after (after st5 (OpDeliver nohyp (index_vaa 31 1100000000000))) (issue 32 bob 1000 1200000000000) in
  hyp_external cfg0 s tokA = 19676 /\ hyp_retry cfg0 s tokA = 0 /\ hyp_dispatched s tokA = 19676.
Proof.
  split; [|split; [apply reach5|vm_compute; auto]]. intros id rc.
  assert (E : map_to_list (d_recipients (st_dollar st5)) = [((HYPERLANE, idB), rcB); ((HYPERLANE, idA), rcA); ((IBC, "channel-0"), "remote")])
    by (vm_compute; reflexivity).
  intros H%elem_of_map_to_list. rewrite E in H. rewrite !elem_of_cons, elem_of_nil in H. destruct H as [H|[H|[H|[]]]]; [| |discriminate]; injection H as -> ->.
  - exists (bytes_of_string idB), 2. vm_compute. split; [done|]. split; [done|]. by eexists.
  - exists (bytes_of_string idA), 1. vm_compute. split; [done|]. split; [done|]. by eexists.
Qed.

(** * C40 *)
Theorem C40_refused : forall c s ok p d, pk_data p = Some d -> ft_denom d = c_denom c ->
  d_recipients (st_dollar s) !! (IBC, pk_chan p) = None -> ics4_send_packet c ok p s = Err s EDisabledChannel.
Proof. exact usdn_refused. Qed.
Print Assumptions C40_refused.
Theorem C40_others_pass : forall c s ok p, (forall d, pk_data p = Some d -> ft_denom d <> c_denom c) \/
    is_Some (d_recipients (st_dollar s) !! (IBC, pk_chan p)) ->
  ics4_send_packet c ok p s =
    if ok then Ok (mk_state (st_bank s) (st_dollar s) (st_portal s) (st_vaults s)
      (mk_world (x_now (st_world s)) (x_vaas (st_world s)) (x_posted (st_world s)) (x_channels (st_world s))
        (x_inflight (st_world s) ++ [p]) (x_acked (st_world s)) (x_tokens (st_world s)) (x_routers (st_world s)) (x_dispatched (st_world s)))) tt
    else Err s EExternal.
Proof. exact others_pass. Qed.
Print Assumptions C40_others_pass.
(** In every history: no packet with USDN on a channel that is not enabled. *)
Theorem C40_only_enabled : forall c s p d, chain_ok c -> reachable c s -> p ∈ x_inflight (st_world s) ->
  pk_data p = Some d -> ft_denom d = c_denom c -> is_Some (d_recipients (st_dollar s) !! (IBC, pk_chan p)).
Proof. exact packets_enabled. Qed.
Print Assumptions C40_only_enabled.
Example C40_ex : reachable cfg0 st5 /\ length (x_inflight (st_world st5)) = 1%nat /\
  succeeds cfg0 st5 (OpIbcSend XOk bob "channel-1" "friend" 10) = false /\ succeeds cfg0 st5 (OpIbcSend XOk bob "channel-0" "friend" 10) = true /\
  succeeds cfg0 st5 (OpIbcSendOther true (mk_packet transfer_port "channel-1" (Some (mk_ft "uatom" (Some 5) "x" "y")))) = true /\
  succeeds cfg0 st5 (OpIbcSendOther true (mk_packet "icahost" "channel-9" None)) = true.
Proof. split; [apply reach5|]. vm_compute. auto 10. Qed.
