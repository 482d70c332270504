(** C14, C16, C18, C19, C23-C26, C41: portal, administration. *)
From Verif Require Import Spec Concrete AdminP.

(** * C14 *)
Theorem C14_delivery_authentic : forall c s x bz, chain_ok c -> reachable c s -> step c s (OpDeliver x bz) <> s ->
  p_paused (st_portal s) = false /\
  exists v pr t m,
    c_vaa c bz = Some v /\ va_digest v ∉ x_vaas (st_world s) /\
    p_peers (st_portal s) !! va_chain v = Some pr /\ va_emitter v = pr_transceiver pr /\
    parse_transceiver (va_payload v) = POk t /\ sl_bytes (tp_source t) = pr_manager pr /\
    sl_bytes (tp_recipient t) = manager_word c /\
    parse_manager (tp_manager t) = POk m /\
    match get_payload_type (mp_payload m) with
    | POk PTToken => exists k, decode_token_payload (mp_payload m) = POk k /\ tk_chain k = c_chain c /\
        sl_bytes (tk_token k) = token_word c
    | POk PTIndex => exists i, decode_index_payload (mp_payload m) = POk (i, c_chain c)
    | POk PTUnknown => True
    | _ => False
    end.
Proof. exact delivery_authentic. Qed.
Print Assumptions C14_delivery_authentic.
(** A fresh VAA changes the state; the same VAA naming another destination chain
    or coming from another emitter does not. *)
Definition foreign_index_vaa : bytes := mk_vaa_bytes 9 (encode_index_payload 1200000000000 7).
Definition other_emitter_vaa : bytes :=
  take 2 (index_vaa 9 1200000000000) ++ replicate 32 Byte.x77 ++ drop 34 (index_vaa 9 1200000000000).
Example C14_delivery_authentic_ex : reachable cfg0 st2 /\
  current_index (after st2 (reindex 9 1200000000000)) = 1200000000000 /\
  succeeds cfg0 st2 (OpDeliver allok foreign_index_vaa) = false /\
  succeeds cfg0 st2 (OpDeliver allok other_emitter_vaa) = false.
Proof. split; [apply reach2|vm_compute; auto]. Qed.

(** * C16 *)
Theorem C16_delivered_once : forall c s s' x bz v l x' bz' v', chain_ok c -> reachable c s ->
  succeeds_with c s (OpDeliver x bz) s' -> c_vaa c bz = Some v ->
  c_vaa c bz' = Some v' -> va_digest v' = va_digest v ->
  rejected c (run c s' l) (OpDeliver x' bz') /\ run c s' (l ++ [OpDeliver x' bz']) = run c s' l.
Proof. exact delivered_once. Qed.
Print Assumptions C16_delivered_once.
Example C16_delivered_once_ex :
  let s := after st2 (issue 9 alice 77 e12) in
  bal s alice = 1000077 /\ bal (after s (issue 9 alice 77 e12)) alice = 1000077 /\
  bal (after s (issue 10 alice 77 e12)) alice = 1000154.
Proof. vm_compute. auto. Qed.

(** * C18 *)
(** A path set to unsupported still carries transfers: the code only checks that
    an entry exists (finding). *)
Theorem C18_paths_refuted : exists c s0 l chain tok, chain_ok c /\ fresh c s0 /\
  p_paths (st_portal (run c s0 l)) !! (chain, tok) = Some false /\
  exists ps g rc amt, succeeds c (run c s0 l) (OpTransfer ps g chain tok rc amt) = true.
Proof.
  exists cfg0, init0, (ops1 ++ [OpSetBridgingPath owner0 2 eth_token false]), 2, eth_token.
  split; [apply chain0_ok|]. split; [apply init0_fresh|]. split; [vm_compute; reflexivity|].
  exists true, (enc0 alice), (replicate 32 Byte.x66), (Some 1000). vm_compute. reflexivity.
Qed.
Print Assumptions C18_paths_refuted.
(** What does hold: the path was configured, one way or the other, by the owner
    of that time. Missing from the full statement: that the last such message
    said "supported". *)
Theorem C18_paths_partial : forall c s0 l ps g chain tok rc amt, chain_ok c -> fresh c s0 ->
  succeeds c (run c s0 l) (OpTransfer ps g chain tok rc amt) = true ->
  exists l1 l2 owner b, l = l1 ++ OpSetBridgingPath owner chain tok b :: l2 /\
    succeeds c (run c s0 l1) (OpSetBridgingPath owner chain tok b) = true /\ owner = p_owner (st_portal (run c s0 l1)).
Proof. exact path_configured. Qed.
Print Assumptions C18_paths_partial.
Example C18_paths_partial_ex :
  succeeds cfg0 st1 (OpTransfer true (enc0 alice) 2 eth_token (replicate 32 Byte.x66) (Some 1000)) = true /\
  succeeds cfg0 st1 (OpTransfer true (enc0 alice) 2 (replicate 32 Byte.x34) (replicate 32 Byte.x66) (Some 1000)) = false.
Proof. vm_compute. auto. Qed.

(** * C19 *)
Theorem C19_nonce_steps : forall c s o s', chain_ok c -> reachable c s -> succeeds_with c s o s' ->
  match o with
  | OpTransfer _ _ _ _ _ _ => p_nonce (st_portal s') = (p_nonce (st_portal s) + 1) mod 2 ^ 32 /\
      posted_nonces s' = posted_nonces s ++ [p_nonce (st_portal s)]
  | _ => p_nonce (st_portal s') = p_nonce (st_portal s) /\ posted_nonces s' = posted_nonces s
  end.
Proof. exact nonce_steps. Qed.
Print Assumptions C19_nonce_steps.
Theorem C19_nonces_unique : forall c s0 l, chain_ok c -> fresh c s0 -> transfers c s0 l <= 2 ^ 32 ->
  NoDup (posted_nonces (run c s0 l)) /\ Z.of_nat (length (posted_nonces (run c s0 l))) = transfers c s0 l.
Proof. exact nonces_unique. Qed.
Print Assumptions C19_nonces_unique.
Definition send_out (g : string) (amt : Z) : op := OpTransfer true g 2 eth_token (replicate 32 Byte.x66) (Some amt).
Example C19_nonces_ex : let l := ops1 ++ [send_out (enc0 alice) 10; send_out (enc0 alice) 99999999; send_out (enc0 bob) 5; send_out (enc0 alice) 7] in
  posted_nonces (run cfg0 init0 l) = [0; 1; 2] /\ transfers cfg0 init0 l = 3 /\ p_nonce (st_portal (run cfg0 init0 l)) = 3.
Proof. vm_compute. auto. Qed.

(** * C23 *)
Theorem C23_owner_only : forall c s o, chain_ok c -> reachable c s ->
  portal_settings (step c s o) <> portal_settings s ->
  p_owner (st_portal s) <> ""%string /\
  ((exists b, o = OpPortalSetPaused (p_owner (st_portal s)) b) \/
   (exists chain t m, o = OpSetPeer (p_owner (st_portal s)) chain t m) \/
   (exists chain tok b, o = OpSetBridgingPath (p_owner (st_portal s)) chain tok b) \/
   (exists n, o = OpTransferOwnership (p_owner (st_portal s)) n)).
Proof. exact portal_owner_only. Qed.
Print Assumptions C23_owner_only.
Theorem C23_exact_change : forall c s s',
  (forall g b, succeeds_with c s (OpPortalSetPaused g b) s' ->
     only_portal s s' (mk_portal (p_owner (st_portal s)) b (p_peers (st_portal s)) (p_paths (st_portal s)) (p_nonce (st_portal s)))) /\
  (forall g chain t m, succeeds_with c s (OpSetPeer g chain t m) s' ->
     only_portal s s' (mk_portal (p_owner (st_portal s)) (p_paused (st_portal s)) (<[chain := mk_peer t m]> (p_peers (st_portal s)))
       (p_paths (st_portal s)) (p_nonce (st_portal s)))) /\
  (forall g chain tok b, succeeds_with c s (OpSetBridgingPath g chain tok b) s' ->
     only_portal s s' (mk_portal (p_owner (st_portal s)) (p_paused (st_portal s)) (p_peers (st_portal s))
       (<[(chain, tok) := b]> (p_paths (st_portal s))) (p_nonce (st_portal s)))) /\
  (forall g n, succeeds_with c s (OpTransferOwnership g n) s' ->
     only_portal s s' (mk_portal n (p_paused (st_portal s)) (p_peers (st_portal s)) (p_paths (st_portal s)) (p_nonce (st_portal s))) /\
     is_Some (c_dec c n) /\ n <> p_owner (st_portal s)).
Proof. exact portal_exact. Qed.
Print Assumptions C23_exact_change.
Theorem C23_rejects_others : forall c s g, g <> p_owner (st_portal s) \/ p_owner (st_portal s) = ""%string ->
  (forall b, rejected c s (OpPortalSetPaused g b)) /\ (forall chain t m, rejected c s (OpSetPeer g chain t m)) /\
  (forall chain tok b, rejected c s (OpSetBridgingPath g chain tok b)) /\ (forall n, rejected c s (OpTransferOwnership g n)).
Proof. exact portal_rejects_others. Qed.
Print Assumptions C23_rejects_others.
(** The owner hands over to alice, who pauses; the old owner can no longer act. *)
Example C23_ex :
  let s := after st1 (OpTransferOwnership owner0 (enc0 alice)) in
  succeeds cfg0 st1 (OpPortalSetPaused owner0 true) = true /\ succeeds cfg0 st1 (OpPortalSetPaused (enc0 alice) true) = false /\
  succeeds cfg0 s (OpPortalSetPaused owner0 true) = false /\
  p_paused (st_portal (after s (OpPortalSetPaused (enc0 alice) true))) = true /\
  succeeds cfg0 s (OpSetPeer (enc0 alice) 3 eth_transceiver eth_manager) = true.
Proof. vm_compute. auto 6. Qed.

(** * C24 *)
Theorem C24_authority_only : forall c s o, chain_ok c -> reachable c s ->
  (d_paused (st_dollar (step c s o)) <> d_paused (st_dollar s) -> exists b, o = OpSetPaused (c_authority c) b) /\
  (v_paused (st_vaults (step c s o)) <> v_paused (st_vaults s) -> exists p, o = OpVaultsSetPaused (c_authority c) p) /\
  (d_recipients (st_dollar (step c s o)) <> d_recipients (st_dollar s) ->
     exists p id r, o = OpSetYieldRecipient (c_authority c) p id r).
Proof. exact authority_only. Qed.
Print Assumptions C24_authority_only.
Theorem C24_exact_change : forall c s s',
  (forall g b, succeeds_with c s (OpSetPaused g b) s' -> g = c_authority c /\
     only_dollar s s' (mk_dollar b (d_index (st_dollar s)) (d_principal (st_dollar s)) (d_stats (st_dollar s))
       (d_ext_yield (st_dollar s)) (d_recipients (st_dollar s)) (d_retry (st_dollar s)))) /\
  (forall g p, succeeds_with c s (OpVaultsSetPaused g p) s' -> g = c_authority c /\ 0 <= p <= 3 /\
     only_vaults s s' (mk_vaults p (v_ended (st_vaults s)) (v_collector (st_vaults s)) (v_positions (st_vaults s))
       (v_total_flex (st_vaults s)) (v_rewards (st_vaults s)) (v_stats (st_vaults s)))) /\
  (forall g p id r, succeeds_with c s (OpSetYieldRecipient g p id r) s' -> g = c_authority c /\
     only_dollar s s' (mk_dollar (d_paused (st_dollar s)) (d_index (st_dollar s)) (d_principal (st_dollar s)) (d_stats (st_dollar s))
       (d_ext_yield (st_dollar s)) (<[(p, id) := r]> (d_recipients (st_dollar s))) (d_retry (st_dollar s)))).
Proof. exact authority_exact. Qed.
Print Assumptions C24_exact_change.
Example C24_ex :
  d_paused (st_dollar (after st1 (OpSetPaused authority true))) = true /\
  v_paused (st_vaults (after st1 (OpVaultsSetPaused authority 2))) = 2 /\
  succeeds cfg0 st1 (OpSetPaused owner0 true) = false /\ succeeds cfg0 st1 (OpVaultsSetPaused owner0 2) = false /\
  succeeds cfg0 (after st1 (OpChannelOpen "channel-0")) (OpSetYieldRecipient authority IBC "channel-0" "r") = true /\
  succeeds cfg0 (after st1 (OpChannelOpen "channel-0")) (OpSetYieldRecipient owner0 IBC "channel-0" "r") = false.
Proof. vm_compute. auto 6. Qed.

(** * C25 *)
Theorem C25_peers_paths : forall c s, chain_ok c -> reachable c s ->
  (forall chain p, p_peers (st_portal s) !! chain = Some p ->
     chain <> 0 /\ chain <> c_chain c /\ wide_address (pr_transceiver p) /\ wide_address (pr_manager p)) /\
  (forall chain tok b, p_paths (st_portal s) !! (chain, tok) = Some b -> chain <> c_chain c /\ wide_address tok).
Proof. exact portal_well_formed. Qed.
Print Assumptions C25_peers_paths.
Example C25_peers_paths_ex :
  p_peers (st_portal st1) !! 2 = Some (mk_peer eth_transceiver eth_manager) /\
  succeeds cfg0 st1 (OpSetPeer owner0 4009 eth_transceiver eth_manager) = false /\
  succeeds cfg0 st1 (OpSetPeer owner0 3 (replicate 31 Byte.x11) eth_manager) = false /\
  succeeds cfg0 st1 (OpSetPeer owner0 3 eth_transceiver (replicate 32 Byte.x00)) = false /\
  succeeds cfg0 st1 (OpSetBridgingPath owner0 4009 eth_token true) = false.
Proof. vm_compute. auto 6. Qed.

(** * C26 *)
Theorem C26_paused : forall c s, p_paused (st_portal s) = true ->
  (forall x bz, rejected c s (OpDeliver x bz) /\ step c s (OpDeliver x bz) = s) /\
  (forall ps g chain tok rc amt, rejected c s (OpTransfer ps g chain tok rc amt) /\ step c s (OpTransfer ps g chain tok rc amt) = s).
Proof. exact portal_paused. Qed.
Print Assumptions C26_paused.
Example C26_paused_ex :
  let s := after st1 (OpPortalSetPaused owner0 true) in
  p_paused (st_portal s) = true /\ succeeds cfg0 s (reindex 3 1100000000000) = false /\
  succeeds cfg0 st1 (reindex 3 1100000000000) = true /\ succeeds cfg0 s (send_out (enc0 alice) 10) = false /\
  succeeds cfg0 (after s (OpPortalSetPaused owner0 false)) (send_out (enc0 alice) 10) = true.
Proof. vm_compute. auto 6. Qed.

(** * C41 *)
(** The code's switch over the provider has no default: any other number is accepted. *)
Theorem C41_recipient_refuted : exists c s g p id r, chain_ok c /\ reachable c s /\
  succeeds c s (OpSetYieldRecipient g p id r) = true /\ p <> IBC /\ p <> HYPERLANE.
Proof.
  exists cfg0, st1, authority, 7, "nowhere"%string, "r"%string. split; [apply chain0_ok|]. split; [apply reach1|].
  split; [vm_compute; reflexivity|done].
Qed.
Print Assumptions C41_recipient_refuted.
(** For the two declared providers the statement holds. *)
Theorem C41_recipient_partial : forall c s s' g p id r, succeeds_with c s (OpSetYieldRecipient g p id r) s' ->
  g = c_authority c /\ (p = IBC -> id ∈ x_channels (st_world s)) /\
  (p = HYPERLANE -> exists h d, c_hex c id = Some h /\ is_Some (x_tokens (st_world s) !! be_decode (drop 24 h)) /\
      x_routers (st_world s) !! be_decode (drop 24 h) = Some [d]) /\
  only_dollar s s' (mk_dollar (d_paused (st_dollar s)) (d_index (st_dollar s)) (d_principal (st_dollar s)) (d_stats (st_dollar s))
       (d_ext_yield (st_dollar s)) (<[(p, id) := r]> (d_recipients (st_dollar s))) (d_retry (st_dollar s))).
Proof. exact recipient_set. Qed.
Print Assumptions C41_recipient_partial.
(** A token id of 32 bytes ending in eight times '0'. *)
Definition token_id : string := "00000000000000000000000000000000".
Definition token_num : Z := be_decode (drop 24 (bytes_of_string token_id)).
Example C41_recipient_partial_ex :
  let s := run cfg0 st1 [OpChannelOpen "channel-0"; OpWarpToken token_num; OpWarpRouters token_num [5]] in
  succeeds cfg0 s (OpSetYieldRecipient authority IBC "channel-0" "r") = true /\
  succeeds cfg0 s (OpSetYieldRecipient authority IBC "channel-1" "r") = false /\
  succeeds cfg0 s (OpSetYieldRecipient authority HYPERLANE token_id "r") = true /\
  succeeds cfg0 (after s (OpWarpRouters token_num [5; 6])) (OpSetYieldRecipient authority HYPERLANE token_id "r") = false /\
  succeeds cfg0 st1 (OpSetYieldRecipient authority HYPERLANE token_id "r") = false.
Proof. vm_compute. auto 6. Qed.
