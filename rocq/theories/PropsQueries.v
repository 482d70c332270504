(** C54: queries report the state the messages act on. *)
From Verif Require Import Spec Concrete QueryP BoardP PropsVaults PropsRewards PropsExt.

Theorem C54_index : forall c s, chain_ok c -> reachable c s -> exists v, q_index s = Ok s v /\ v * 10 ^ 12 = current_index s * 10 ^ 18.
Proof. exact index_reported. Qed.
Print Assumptions C54_index.
(** The index 1.1 as a number with 18 decimals. *)
Example C54_index_ex : match q_index st2 with Ok _ v => v = 1100000000000000000 | _ => False end.
Proof. vm_compute. reflexivity. Qed.

Theorem C54_account : forall c s g a, chain_ok c -> reachable c s -> c_dec c g = Some a ->
  q_principal c g s = Ok s (prin s a) /\ (int_range (prin s a * current_index s) -> q_yield c g s = Ok s (claimable s a)).
Proof. exact account_reported. Qed.
Print Assumptions C54_account.
Theorem C54_yield_paid : forall c s s' g a y, chain_ok c -> reachable c s -> c_dec c g = Some a -> a <> YieldA ->
  q_yield c g s = Ok s y -> succeeds_with c s (OpClaimYield g) s' -> bal s' a = bal s a + y /\ bal s' YieldA = bal s YieldA - y.
Proof. exact yield_reported. Qed.
Print Assumptions C54_yield_paid.
Example C54_account_ex : c_dec cfg0 (enc0 alice) = Some alice /\ prin st2 alice = 1000000 /\ int_range (prin st2 alice * current_index st2) /\
  succeeds cfg0 st2 (OpClaimYield (enc0 alice)) = true /\ bal (after st2 (OpClaimYield (enc0 alice))) alice = bal st2 alice + 100000.
Proof. vm_compute. repeat split; reflexivity. Qed.

Theorem C54_tokens : forall s ch, exists l, q_destination_tokens ch s = Ok s l /\ NoDup l /\
  forall t, t ∈ l <-> p_paths (st_portal s) !! (ch mod 2 ^ 16, t) = Some true.
Proof. exact tokens_reported. Qed.
Print Assumptions C54_tokens.
(** Two tokens, one of them switched off; a chain number is cut to 16 bits. *)
Definition token2 : bytes := replicate 32 Byte.x09.
Definition stq : state := run cfg0 st1 [OpSetBridgingPath owner0 2 token2 true; OpSetBridgingPath owner0 2 token2 false].
Example C54_tokens_ex :
  let s := after st1 (OpSetBridgingPath owner0 2 token2 true) in
  p_paths (st_portal s) !! (2, token2) = Some true /\ p_paths (st_portal stq) !! (2, token2) = Some false /\
  match q_destination_tokens 2 s, q_destination_tokens 65538 stq with
  | Ok _ l, Ok _ l' => length l = 2%nat /\ length l' = 1%nat
  | _, _ => False
  end.
Proof. vm_compute. repeat split; reflexivity. Qed.

Theorem C54_rewards : forall s,
  (forall s' v, q_pending_rewards s = Ok s' v -> s' = s /\ v = remaining_rewards s) /\
  ((forall i r, rewards s !! i = Some r -> 0 <= rw_rewards r) -> remaining_rewards s < 2 ^ 256 -> q_pending_rewards s = Ok s (remaining_rewards s)).
Proof. exact rewards_reported. Qed.
Print Assumptions C54_rewards.
Example C54_rewards_ex : remaining_rewards st4 = 165 /\ match q_pending_rewards st4 with Ok _ v => v = 165 | _ => False end.
Proof. vm_compute. auto. Qed.

Theorem C54_positions : forall c s g a, chain_ok c -> reachable c s -> c_dec c g = Some a ->
  exists l, q_positions_by_provider c g s = Ok s l /\ NoDup l /\
    forall v p, (v, p) ∈ l <-> positions s !! (a, v, pos_time p) = Some p.
Proof. exact positions_reported. Qed.
Print Assumptions C54_positions.
Example C54_positions_ex : c_dec cfg0 bob0 = Some bob /\
  match q_positions_by_provider cfg0 bob0 st4 with Ok _ l => l <> [] | _ => False end.
Proof. split; [by vm_compute|]. vm_compute. discriminate. Qed.

Theorem C54_recipients : forall s, exists m, q_yield_recipients s = Ok s m /\
  (forall p id, m !! (provider_name p +:+ "/" +:+ id) = d_recipients (st_dollar s) !! (p, id)) /\
  (forall n, is_Some (m !! n) -> exists p id, n = provider_name p +:+ "/" +:+ id).
Proof. exact recipients_reported. Qed.
Print Assumptions C54_recipients.
Theorem C54_retries : forall s, exists m, q_retry_amounts s = Ok s m /\
  (forall p id, default 0 (m !! (provider_name p +:+ "/" +:+ id)) = retry_of s p id) /\
  (forall n, is_Some (m !! n) -> exists p id, n = provider_name p +:+ "/" +:+ id) /\
  (forall p id, q_retry_amount p id s = Ok s (default 0 (m !! (provider_name p +:+ "/" +:+ id)))).
Proof. exact retries_reported. Qed.
Print Assumptions C54_retries.
Theorem C54_external : forall c ibc s, exists m, q_stats_v2 c ibc s = Ok s (d_stats (st_dollar s), m) /\
  (forall p id, (snd <$> m !! (provider_name p +:+ "/" +:+ id)) = d_ext_yield (st_dollar s) !! (p, id)) /\
  (forall n, is_Some (m !! n) -> exists p id, n = provider_name p +:+ "/" +:+ id) /\
  forall id x, no_slash id ->
    (m !! ("IBC/" +:+ id) = Some x -> x.1 = ibc id) /\
    (m !! ("HYPERLANE/" +:+ id) = Some x ->
      x.1 = match c_hex c id with
            | Some h => match x_routers (st_world s) !! be_decode (drop 24 h) with Some [d] => pretty d | _ => "UNKNOWN"%string end
            | None => "UNKNOWN"%string
            end).
Proof. exact external_reported. Qed.
Print Assumptions C54_external.
(** One channel and two tokens with yield; the dispatch for the first token failed. *)
Example C54_external_ex :
  let s := after st5 (OpDeliver nohyp (index_vaa 31 1100000000000)) in
  match q_yield_recipients s, q_retry_amounts s, q_stats_v2 cfg0 (fun id => ("chain of " ++ id)%string) s with
  | Ok _ m1, Ok _ m2, Ok _ (_, m3) =>
    m1 !! "IBC/channel-0"%string = Some "remote"%string /\ m1 !! ("HYPERLANE/" ++ idA)%string = Some rcA /\ size m1 = 3%nat /\
    m2 !! ("HYPERLANE/" ++ idA)%string = Some 9999 /\ size m2 = 1%nat /\
    m3 !! "IBC/channel-0"%string = Some ("chain of channel-0"%string, 20000) /\
    m3 !! ("HYPERLANE/" ++ idB)%string = Some ("2"%string, 4999)
  | _, _, _ => False
  end.
Proof. vm_compute. repeat split; reflexivity. Qed.
Theorem C54_read : forall c ibc, reads q_vaults_paused /\ (forall g, reads (q_positions_by_provider c g)) /\ reads q_vaults_stats /\
  reads q_yield_recipients /\ reads q_retry_amounts /\ reads (q_stats_v2 c ibc).
Proof. exact more_queries_read. Qed.
Print Assumptions C54_read.

(** The settings: each query answers what the last successful message announced,
    in every history. *)
Theorem C54_settings : forall c s0 ops, chain_ok c -> fresh c s0 ->
  let s := run c s0 ops in let b := board_of c s0 (board0 s0) ops in
  q_paused s = Ok s (bd_paused b) /\ q_portal_paused s = Ok s (bd_portal_paused b) /\ q_vaults_paused s = Ok s (bd_vaults_paused b) /\
  q_owner s = Ok s (bd_owner b) /\
  (exists m, q_peers s = Ok s m /\ forall k, m !! k = (fun tm => mk_peer tm.1 tm.2) <$> bd_peer b k) /\
  (forall p id, q_yield_recipient p id s = match bd_recipient b p id with Some r => Ok s r | None => Err s ENotFound end) /\
  (forall k t, 0 <= k < 2 ^ 16 -> exists l, q_destination_tokens k s = Ok s l /\ (t ∈ l <-> bd_path b k t = true)) /\
  q_nonce s = Ok s ((p_nonce (st_portal s0) + Z.of_nat (bd_sent b)) mod 2 ^ 32).
Proof. exact settings_reported. Qed.
Print Assumptions C54_settings.
(** A recipient is set and replaced, a stranger's change of the peer is ignored, a
    path is switched off, and one transfer leaves. *)
Example C54_settings_ex :
  let ops := ops5 ++ [OpSetYieldRecipient authority IBC "channel-0" "other"; OpSetPeer alice0 2 eth_manager eth_manager;
    OpSetBridgingPath owner0 2 token2 true; OpSetBridgingPath owner0 2 token2 false; OpPortalSetPaused alice0 true;
    OpTransfer true bob0 2 eth_token (replicate 32 Byte.x66) (Some 10); OpVaultsSetPaused authority 2] in
  let b := board_of cfg0 init0 (board0 init0) ops in
  bd_recipient b IBC "channel-0" = Some "other"%string /\ bd_recipient b IBC "channel-1" = None /\
  bd_peer b 2 = Some (eth_transceiver, eth_manager) /\ bd_path b 2 eth_token = true /\ bd_path b 2 token2 = false /\
  bd_portal_paused b = false /\ bd_vaults_paused b = 2 /\ bd_sent b = 1%nat /\ bd_owner b = owner0.
Proof. vm_compute. auto 10. Qed.
