(** C52, C53, C55, C56: exact effect of issuance, redemption, IBC, hyperlane and vault
    messages, and acceptance of administration. *)
From Verif Require Import Spec Concrete ExactP PropsVaults PropsExt.

(** * C52 *)
Theorem C52_issue : forall c s s' x bz t, chain_ok c -> reachable c s -> carried_token c bz = Some t ->
  exec c (OpDeliver x bz) s = Ok s' tt ->
  let r := c_acct c (sl_bytes (tk_recipient t)) in
  total_principal s' = total_principal s
    + (if decide (r = YieldA) then 0 else ceil_div (tk_amount t * unit_index) (current_index s')) /\
  (tk_index t <= current_index s ->
     (forall a, bal s' a = bal s a + on a r (tk_amount t)) /\
     (forall a, prin s' a = prin s a + (if decide (r = YieldA) then 0 else on a r (floor_div (tk_amount t * unit_index) (current_index s)))) /\
     supply s' = supply s + tk_amount t /\ current_index s' = current_index s /\
     ds_yield (d_stats (st_dollar s')) = ds_yield (d_stats (st_dollar s)) /\
     d_ext_yield (st_dollar s') = d_ext_yield (st_dollar s) /\ d_retry (st_dollar s') = d_retry (st_dollar s) /\
     d_paused (st_dollar s') = d_paused (st_dollar s) /\ d_recipients (st_dollar s') = d_recipients (st_dollar s) /\
     st_portal s' = st_portal s /\ st_vaults s' = st_vaults s /\
     exists v, c_vaa c bz = Some v /\ st_world s' = st_world s <| x_vaas := {[va_digest v]} ∪ x_vaas (st_world s) |>).
Proof. exact issue_books. Qed.
Print Assumptions C52_issue.
Theorem C52_redeem : forall c s s' ps g chain tok rc amount, chain_ok c -> reachable c s ->
  exec c (OpTransfer ps g chain tok rc amount) s = Ok s' tt ->
  exists b x, c_dec c g = Some (AUser b) /\ amount = Some x /\ 0 <= x /\
    let q := ceil_div (x * unit_index) (current_index s) in
    (forall a, bal s' a = bal s a - on a (AUser b) x) /\
    (forall a, prin s' a = prin s a - on a (AUser b) q) /\
    total_principal s' = total_principal s - q /\ supply s' = supply s - x /\ current_index s' = current_index s /\
    ds_yield (d_stats (st_dollar s')) = ds_yield (d_stats (st_dollar s)) /\
    d_ext_yield (st_dollar s') = d_ext_yield (st_dollar s) /\ d_retry (st_dollar s') = d_retry (st_dollar s) /\
    d_paused (st_dollar s') = d_paused (st_dollar s) /\ d_recipients (st_dollar s') = d_recipients (st_dollar s) /\
    portal_settings s' = portal_settings s /\ st_vaults s' = st_vaults s /\
    exists msg, st_world s' = st_world s <| x_posted := x_posted (st_world s) ++ [(msg, p_nonce (st_portal s))] |>.
Proof. exact redeem_books. Qed.
Print Assumptions C52_redeem.
(** At index 1.1: 1000 issued to bob are worth 909 of principal to bob and 910 in total;
    redeeming 1000 takes 910 from both. *)
Example C52_issue_ex : let s := after st2 (issue 51 bob 1000 1100000000000) in
  succeeds cfg0 st2 (issue 51 bob 1000 1100000000000) = true /\ reachable cfg0 st2 /\
  option_map tk_amount (carried_token cfg0 (token_vaa 51 bob 1000 1100000000000)) = Some 1000 /\
  bal s bob = bal st2 bob + 1000 /\ prin s bob = prin st2 bob + 909 /\ total_principal s = total_principal st2 + 910.
Proof. split; [vm_compute; reflexivity|]. split; [apply reach2|]. vm_compute. repeat split; reflexivity. Qed.
(** The yield account gets the tokens but no principal. *)
Example C52_issue_yield_ex : let s := after st2 (issue 51 YieldA 1000 1100000000000) in
  succeeds cfg0 st2 (issue 51 YieldA 1000 1100000000000) = true /\
  bal s YieldA = bal st2 YieldA + 1000 /\ prin s YieldA = 0 /\ total_principal s = total_principal st2.
Proof. vm_compute. repeat split; reflexivity. Qed.
Example C52_redeem_ex : let o := OpTransfer true (enc0 alice) 2 eth_token (replicate 32 Byte.x66) (Some 1000) in
  let s := after st2 o in succeeds cfg0 st2 o = true /\
  bal s alice = bal st2 alice - 1000 /\ prin s alice = prin st2 alice - 910 /\ total_principal s = total_principal st2 - 910 /\
  length (x_posted (st_world s)) = S (length (x_posted (st_world st2))).
Proof. vm_compute. repeat split; reflexivity. Qed.

(** * C53 *)
Theorem C53_ibc_send : forall c s s' o from ch rc x, chain_ok c -> reachable c s ->
  exec c (OpIbcSend o from ch rc x) s = Ok s' tt ->
  external from = true /\ 0 < x <= bal s from /\ is_Some (d_recipients (st_dollar s) !! (IBC, ch)) /\
  exists m, transferred s m from (AEscrow transfer_port ch) x /\
    only_world m s' (st_world s <| x_inflight := x_inflight (st_world s) ++
      [mk_packet transfer_port ch (Some (mk_ft (c_denom c) (Some x) (c_enc c from) rc))] |>).
Proof. exact ibc_send_exact. Qed.
Print Assumptions C53_ibc_send.
Theorem C53_ibc_receive : forall c s s' ch rc x, chain_ok c -> reachable c s -> exec c (OpIbcRecv ch rc x) s = Ok s' tt ->
  exists a, c_dec c rc = Some a /\ c_blocked c a = false /\
    (x = 0 /\ s' = s \/ 0 < x <= bal s (AEscrow transfer_port ch) /\ transferred s s' (AEscrow transfer_port ch) a x).
Proof. exact ibc_recv_exact. Qed.
Print Assumptions C53_ibc_receive.
Theorem C53_ibc_refund : forall c s s' n o, chain_ok c -> reachable c s -> o = OpIbcTimeout n \/ o = OpIbcAck n AckError ->
  exec c o s = Ok s' tt ->
  exists p, x_inflight (st_world s) !! n = Some p /\
  let w := st_world s <| x_inflight := delete n (x_inflight (st_world s)) |> in
  (is_usdn c p = false /\ only_world s s' w \/
   exists a z rc ch, p = mk_packet transfer_port ch (Some (mk_ft (c_denom c) (Some z) (c_enc c a) rc)) /\
     0 < z <= bal s (AEscrow transfer_port ch) /\
     exists m, transferred s m (AEscrow transfer_port ch) a z /\
       s' = mk_state (st_bank m)
         (st_dollar m <| d_retry := if decide (a = AEscrow transfer_port ch)
            then <[(IBC, ch) := retry_of s IBC ch + z]> (d_retry (st_dollar s)) else d_retry (st_dollar s) |>)
         (st_portal m) (st_vaults m) w).
Proof. exact ibc_refund_exact. Qed.
Print Assumptions C53_ibc_refund.
Theorem C53_warp_send : forall c s s' o from tok domain rc x, chain_ok c -> reachable c s ->
  exec c (OpWarpSend o from tok domain rc x) s = Ok s' tt ->
  external from = true /\ 0 < x <= bal s from /\
  exists col m, x_tokens (st_world s) !! tok = Some col /\ transferred s m from WarpA x /\
    only_world m s' (st_world s <| x_tokens := <[tok := col + x]> (x_tokens (st_world s)) |>
      <| x_dispatched := x_dispatched (st_world s) ++ [mk_hypmsg from tok domain rc x] |>).
Proof. exact warp_send_exact. Qed.
Print Assumptions C53_warp_send.
Theorem C53_warp_receive : forall c s s' tok to x, chain_ok c -> reachable c s -> exec c (OpWarpRecv tok to x) s = Ok s' tt ->
  c_blocked c to = false /\
  exists col m, x_tokens (st_world s) !! tok = Some col /\ 0 < x <= col /\ x <= bal s WarpA /\ transferred s m WarpA to x /\
    only_world m s' (st_world s <| x_tokens := <[tok := col - x]> (x_tokens (st_world s)) |>).
Proof. exact warp_recv_exact. Qed.
Print Assumptions C53_warp_receive.
Example C53_ibc_send_ex : let o := OpIbcSend XOk bob "channel-0" "friend" 700 in
  succeeds cfg0 st5 o = true /\ bal (after st5 o) (AEscrow transfer_port "channel-0") = 200700 /\
  bal (after st5 o) bob = bal st5 bob - 700 /\ length (x_inflight (st_world (after st5 o))) = 2%nat.
Proof. vm_compute. repeat split; reflexivity. Qed.
Example C53_ibc_receive_ex : let o := OpIbcRecv "channel-0" (enc0 carol) 700 in
  succeeds cfg0 st5 o = true /\ bal (after st5 o) carol = bal st5 carol + 700 /\ prin (after st5 o) carol = prin st5 carol + 700 /\
  bal (after st5 o) (AEscrow transfer_port "channel-0") = 199300.
Proof. vm_compute. repeat split; reflexivity. Qed.
Example C53_ibc_refund_ex : let s := after st5 (OpIbcTimeout 0) in succeeds cfg0 st5 (OpIbcTimeout 0) = true /\
  bal s alice = bal st5 alice + 200000 /\ x_inflight (st_world s) = [] /\ retry_of s IBC "channel-0" = 0.
Proof. vm_compute. repeat split; reflexivity. Qed.
Example C53_warp_send_ex : let o := OpWarpSend XOk bob tokA 1 (replicate 32 Byte.x01) 40 in
  succeeds cfg0 st5 o = true /\ bal (after st5 o) WarpA = bal st5 WarpA + 40 /\
  x_tokens (st_world (after st5 o)) !! tokA = Some 100040.
Proof. vm_compute. repeat split; reflexivity. Qed.
Example C53_warp_receive_ex : let o := OpWarpRecv tokA carol 40 in
  succeeds cfg0 st5 o = true /\ bal (after st5 o) carol = bal st5 carol + 40 /\ bal (after st5 o) WarpA = bal st5 WarpA - 40 /\
  x_tokens (st_world (after st5 o)) !! tokA = Some 99960.
Proof. vm_compute. repeat split; reflexivity. Qed.

(** * C55 *)
Theorem C55_staked_payout : forall c s s' g x b, chain_ok c -> reachable c s -> c_dec c g = Some (AUser b) ->
  exec c (OpUnlock g STAKED (Some x)) s = Ok s' tt -> let a := AUser b in
  let of_user k := bool_decide (k.1 = (a, STAKED)) in
  let part p := pos_amount p - amount_at s' (a, STAKED, pos_time p) in
  let moved := position_sum of_user (fun p => ceil_div (part p * unit_index) (current_index s)) s in
  let removed := position_sum of_user (fun p => floor_div (part p * unit_index) (pos_index p)) s in
  position_sum of_user part s = x /\
  (forall y, prin s' y = prin s y + on y a moved - on y StakedA moved) /\
  total_principal s' = total_principal s /\
  vault_total s' STAKED = vault_total s STAKED - removed /\ vault_total s' FLEXIBLE = vault_total s FLEXIBLE /\
  v_total_flex (st_vaults s') = v_total_flex (st_vaults s) /\ rewards s' = rewards s /\ distributed s' = distributed s.
Proof. exact staked_payout. Qed.
Print Assumptions C55_staked_payout.
Theorem C55_lock_books : forall c s s' g v x b, chain_ok c -> reachable c s -> c_dec c g = Some (AUser b) ->
  exec c (OpLock g v (Some x)) s = Ok s' tt -> let p := floor_div (x * unit_index) (current_index s) in
  (forall w, a_vault w -> vault_total s' w = vault_total s w + (if v =? w then p else 0)) /\
  v_total_flex (st_vaults s') = v_total_flex (st_vaults s) + (if v =? FLEXIBLE then p else 0) /\
  total_principal s' = total_principal s /\ rewards s' = rewards s /\ distributed s' = distributed s /\
  v_paused (st_vaults s') = v_paused (st_vaults s) /\ v_ended (st_vaults s') = v_ended (st_vaults s) /\
  ds_yield (d_stats (st_dollar s')) = ds_yield (d_stats (st_dollar s)).
Proof. exact lock_books. Qed.
Print Assumptions C55_lock_books.
(** alice takes 350 of 300 + 110 at the same index: two pieces of 300 and 50. *)
Example C55_staked_payout_ex : let s := after st3 (OpUnlock alice0 STAKED (Some 350)) in
  reachable cfg0 st3 /\ succeeds cfg0 st3 (OpUnlock alice0 STAKED (Some 350)) = true /\
  amount_at st3 (alice, STAKED, 1000) = 300 /\ amount_at s (alice, STAKED, 1000) = 0 /\
  amount_at st3 (alice, STAKED, 1010) = 110 /\ amount_at s (alice, STAKED, 1010) = 60 /\
  prin s alice = prin st3 alice + 319 /\ prin s StakedA = prin st3 StakedA - 319 /\
  vault_total s STAKED = vault_total st3 STAKED - 317.
Proof. split; [apply reach3|]. vm_compute. repeat split; reflexivity. Qed.
Example C55_lock_books_ex : let s := after st3 (OpLock bob0 FLEXIBLE (Some 1000)) in
  succeeds cfg0 st3 (OpLock bob0 FLEXIBLE (Some 1000)) = true /\
  vault_total s FLEXIBLE = vault_total st3 FLEXIBLE + 909 /\ vault_total s STAKED = vault_total st3 STAKED /\
  v_total_flex (st_vaults s) = v_total_flex (st_vaults st3) + 909.
Proof. vm_compute. repeat split; reflexivity. Qed.

(** * C56 *)
Theorem C56_admin : forall c s g,
  (forall b, succeeds c s (OpPortalSetPaused g b) = true <-> is_owner s g) /\
  (forall chain t m, succeeds c s (OpSetPeer g chain t m) = true <->
     is_owner s g /\ chain <> 0 /\ chain <> c_chain c /\ wide_address t /\ wide_address m) /\
  (forall chain tok b, succeeds c s (OpSetBridgingPath g chain tok b) = true <-> is_owner s g /\ chain <> c_chain c /\ wide_address tok) /\
  (forall n, succeeds c s (OpTransferOwnership g n) = true <-> is_owner s g /\ is_Some (c_dec c n) /\ n <> g) /\
  (forall b, succeeds c s (OpSetPaused g b) = true <-> g = c_authority c) /\
  (forall p, succeeds c s (OpVaultsSetPaused g p) = true <-> g = c_authority c /\ 0 <= p <= 3) /\
  (forall p id r, succeeds c s (OpSetYieldRecipient g p id r) = true <-> g = c_authority c /\
     (p = IBC -> id ∈ x_channels (st_world s)) /\
     (p = HYPERLANE -> exists h d, c_hex c id = Some h /\ is_Some (x_tokens (st_world s) !! be_decode (drop 24 h)) /\
        x_routers (st_world s) !! be_decode (drop 24 h) = Some [d])).
Proof. exact admin_accepts. Qed.
Print Assumptions C56_admin.
Theorem C56_unknown : forall c s x bz v pr from to id sender extra payload,
  chain_ok c -> reachable c s -> p_paused (st_portal s) = false ->
  c_vaa c bz = Some v -> va_digest v ∉ x_vaas (st_world s) -> slice_ok (va_payload v) ->
  p_peers (st_portal s) !! va_chain v = Some pr -> va_emitter v = pr_transceiver pr -> from = pr_manager pr -> to = manager_word c ->
  sl_bytes (va_payload v) = wire from to id sender payload extra ->
  wide id -> wide sender -> blen payload <= 65000 -> blen extra < 65536 ->
  take 4 payload <> [Byte.x99; Byte.x4e; Byte.x54; Byte.x54] -> take 4 payload <> [Byte.x4d; Byte.x30; Byte.x49; Byte.x54] ->
  exec c (OpDeliver x bz) s = Ok (s <| st_world; x_vaas ::= union {[va_digest v]} |>) tt.
Proof. exact unknown_ignored. Qed.
Print Assumptions C56_unknown.
Example C56_admin_ex :
  succeeds cfg0 st5 (OpVaultsSetPaused authority 3) = true /\ succeeds cfg0 st5 (OpVaultsSetPaused authority 4) = false /\
  succeeds cfg0 st5 (OpVaultsSetPaused owner0 3) = false /\
  succeeds cfg0 st5 (OpTransferOwnership owner0 alice0) = true /\ succeeds cfg0 st5 (OpTransferOwnership owner0 owner0) = false /\
  succeeds cfg0 st5 (OpTransferOwnership owner0 "nobody") = false /\
  succeeds cfg0 st5 (OpSetPeer owner0 5 eth_transceiver eth_manager) = true /\
  succeeds cfg0 st5 (OpSetPeer owner0 0 eth_transceiver eth_manager) = false /\
  succeeds cfg0 st5 (OpSetPeer owner0 5 eth_transceiver (replicate 32 Byte.x00)) = false /\
  succeeds cfg0 st5 (OpSetBridgingPath owner0 4009 eth_token true) = false /\
  succeeds cfg0 st5 (OpSetYieldRecipient authority IBC "channel-0" "r") = true /\
  succeeds cfg0 st5 (OpSetYieldRecipient authority IBC "channel-9" "r") = false /\
  succeeds cfg0 st5 (OpSetYieldRecipient authority HYPERLANE idA "r") = true.
Proof. vm_compute. repeat split; reflexivity. Qed.
(** A message with the prefix 01020304. *)
Definition odd_payload : bytes := [Byte.x01; Byte.x02; Byte.x03; Byte.x04; Byte.x05].
Example C56_unknown_ex : exists v, c_vaa cfg0 (mk_vaa_bytes 61 odd_payload) = Some v /\
  sl_bytes (va_payload v) = wire eth_manager (manager_word cfg0) (be_encode 32 61) (replicate 32 Byte.x44) odd_payload [] /\
  p_peers (st_portal st2) !! va_chain v = Some (mk_peer (va_emitter v) eth_manager) /\
  va_digest v ∉ x_vaas (st_world st2) /\ take 4 odd_payload <> [Byte.x99; Byte.x4e; Byte.x54; Byte.x54] /\ take 4 odd_payload <> [Byte.x4d; Byte.x30; Byte.x49; Byte.x54] /\
  succeeds cfg0 st2 (OpDeliver allok (mk_vaa_bytes 61 odd_payload)) = true /\
  va_digest v ∈ x_vaas (st_world (after st2 (OpDeliver allok (mk_vaa_bytes 61 odd_payload)))).
Proof.
  eexists. split; [vm_compute; reflexivity|]. split; [vm_compute; reflexivity|]. split; [vm_compute; reflexivity|].
  split; [apply (bool_decide_unpack _); vm_compute; exact I|].
  split; [vm_compute; discriminate|]. split; [vm_compute; discriminate|]. split; [vm_compute; reflexivity|].
  apply (bool_decide_unpack _); vm_compute; exact I.
Qed.
