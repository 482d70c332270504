(** C58, C60, C61: the stored state, what accounts are worth, messages that undo each other. *)
From Verif Require Import Spec Concrete WorthP PropsVaults PropsRewards PropsExt.

(** * C58 *)
Theorem C58_stored : forall c s, chain_ok c -> reachable c s -> well_formed c s.
Proof. exact stored_state. Qed.
Print Assumptions C58_stored.
Theorem C58_pause : forall c s l, chain_ok c -> reachable c s -> 0 <= v_paused (st_vaults s) <= 3 ->
  0 <= v_paused (st_vaults (run c s l)) <= 3.
Proof. exact pause_range. Qed.
Print Assumptions C58_pause.
Example C58_stored_ex : reachable cfg0 st3 /\ positions st3 !! (alice, STAKED, 1010) = Some (mk_position 100 1100000000000 110 1010) /\
  (let s := after st3 (OpUnlock alice0 STAKED (Some 350)) in positions s !! (alice, STAKED, 1010) = Some (mk_position 55 1100000000000 60 1010) /\
   floor_div (60 * unit_index) 1100000000000 = 54) /\
  reachable cfg0 st5 /\ length (x_inflight (st_world st5)) = 1%nat /\ x_tokens (st_world st5) !! tokA = Some 100000 /\ bal st5 ModuleA = 0.
Proof. split; [exact reach3|]. split; [vm_compute; reflexivity|]. split; [vm_compute; auto|]. split; [exact reach5|]. vm_compute. auto. Qed.
Example C58_pause_ex : v_paused (st_vaults (after st3 (OpVaultsSetPaused authority 3))) = 3 /\
  v_paused (st_vaults (run cfg0 st3 [OpVaultsSetPaused authority 2; OpVaultsSetPaused authority 4])) = 2.
Proof. vm_compute. auto. Qed.

(** * C60 *)
Theorem C60_kept : forall c s l b, chain_ok c -> reachable c s ->
  Forall (fun o => signer_of c o <> Some (AUser b)) l ->
  worth s (AUser b) <= worth (run c s l) (AUser b).
Proof. exact worth_kept. Qed.
Print Assumptions C60_kept.
Theorem C60_claim : forall c s s' signer b, chain_ok c -> reachable c s -> c_dec c signer = Some (AUser b) ->
  succeeds_with c s (OpClaimYield signer) s' ->
  (forall a, a <> YieldA -> worth s' a = worth s a) /\ worth s (AUser b) - 1 <= bal s' (AUser b) <= worth s (AUser b).
Proof. exact worth_claim. Qed.
Print Assumptions C60_claim.
Theorem C60_transfer : forall c s s' f t x, chain_ok c -> reachable c s -> succeeds_with c s (OpSend f t x) s' -> f <> t ->
  let unit := ceil_div (current_index s) unit_index in
  worth s f - x - unit <= worth s' f <= worth s f - x /\
  worth s t + x <= worth s' t <= worth s t + x + unit /\
  forall a, a <> f -> a <> t -> worth s' a = worth s a.
Proof. exact worth_transfer. Qed.
Print Assumptions C60_transfer.
Theorem C60_issue : forall c s s' x bz t, chain_ok c -> reachable c s -> carried_token c bz = Some t -> tk_index t <= current_index s ->
  succeeds_with c s (OpDeliver x bz) s' -> let r := c_acct c (sl_bytes (tk_recipient t)) in
  worth s r + tk_amount t - ceil_div (current_index s) unit_index <= worth s' r <= worth s r + tk_amount t \/ r = YieldA.
Proof. exact worth_issue. Qed.
Print Assumptions C60_issue.
(** alice holds 1000000 with as much principal at index 1.1: worth 1100000. *)
Example C60_ex : worth st2 alice = 1100000 /\ worth st2 carol = 0 /\
  worth (run cfg0 st2 [OpClaimYield (enc0 bob); OpSend bob alice 7; reindex 70 1200000000000]) alice = 1200008 /\
  worth (after st2 (OpClaimYield alice0)) alice = 1100000 /\ bal (after st2 (OpClaimYield alice0)) alice = 1100000 /\
  worth (after st2 (OpSend alice carol 101)) alice = 1099898 /\ worth (after st2 (OpSend alice carol 101)) carol = 101 /\
  worth (after st2 (issue 71 alice 100 1100000000000)) alice = 1100099.
Proof. vm_compute. repeat split; reflexivity. Qed.

(** * C61 *)
Theorem C61_send_back : forall c s s1 s2 f t x, chain_ok c -> reachable c s ->
  succeeds_with c s (OpSend f t x) s1 -> succeeds_with c s1 (OpSend t f x) s2 -> restored s s2.
Proof. exact send_back. Qed.
Print Assumptions C61_send_back.
Theorem C61_ibc : forall c s s1 s2 o from ch rc x n, chain_ok c -> reachable c s ->
  succeeds_with c s (OpIbcSend XOk from ch rc x) s1 -> n = length (x_inflight (st_world s)) ->
  o = OpIbcTimeout n \/ o = OpIbcAck n AckError -> succeeds_with c s1 o s2 ->
  restored s s2 /\
  d_retry (st_dollar s2) = d_retry (st_dollar s) /\ st_world s2 = st_world s /\ st_vaults s2 = st_vaults s /\ st_portal s2 = st_portal s.
Proof. exact ibc_undone. Qed.
Print Assumptions C61_ibc.
Theorem C61_warp : forall c s s1 s2 from tok domain rc x, chain_ok c -> reachable c s ->
  succeeds_with c s (OpWarpSend XOk from tok domain rc x) s1 -> succeeds_with c s1 (OpWarpRecv tok from x) s2 ->
  restored s s2 /\ x_tokens (st_world s2) = x_tokens (st_world s) /\ st_vaults s2 = st_vaults s /\ st_portal s2 = st_portal s.
Proof. exact warp_undone. Qed.
Print Assumptions C61_warp.
Theorem C61_redeem : forall c s s1 s2 x bz t ps g chain tok rc, chain_ok c -> reachable c s -> carried_token c bz = Some t ->
  tk_index t <= current_index s -> c_dec c g = Some (c_acct c (sl_bytes (tk_recipient t))) ->
  succeeds_with c s (OpDeliver x bz) s1 -> succeeds_with c s1 (OpTransfer ps g chain tok rc (Some (tk_amount t))) s2 ->
  (forall a, bal s2 a = bal s a) /\ supply s2 = supply s /\ total_principal s2 = total_principal s /\ current_index s2 = current_index s /\
  (forall a, c_dec c g <> Some a -> prin s2 a = prin s a) /\
  (forall a, c_dec c g = Some a -> prin s a - 1 <= prin s2 a <= prin s a).
Proof. exact issue_undone. Qed.
Print Assumptions C61_redeem.
Theorem C61_lock : forall c s s1 s2 g v x, chain_ok c -> reachable c s ->
  succeeds_with c s (OpLock g v (Some x)) s1 -> succeeds_with c s1 (OpUnlock g v (Some x)) s2 ->
  exists b, c_dec c g = Some (AUser b) /\
  bal s (AUser b) <= bal s2 (AUser b) /\
  (v = STAKED -> forall a, bal s2 a = bal s a) /\
  (v = STAKED -> stake s (AUser b) STAKED = 0 -> restored s s2 /\ positions s2 = positions s /\
     vault_total s2 STAKED = vault_total s STAKED /\ vault_users s2 STAKED = vault_users s STAKED).
Proof. exact lock_undone. Qed.
Print Assumptions C61_lock.
Example C61_ex :
  (let l := [OpSend alice bob 101; OpSend bob alice 101] in succeeds cfg0 (after st2 (OpSend alice bob 101)) (OpSend bob alice 101) = true /\
   prin (run cfg0 st2 l) alice = prin st2 alice /\ prin (after st2 (OpSend alice bob 101)) alice = prin st2 alice - 92) /\
  (let o := OpIbcSend XOk bob "channel-0" "friend" 700 in succeeds cfg0 st5 o = true /\ succeeds cfg0 (after st5 o) (OpIbcTimeout 1) = true /\
   succeeds cfg0 (after st5 o) (OpIbcAck 1 AckError) = true /\ bal (run cfg0 st5 [o; OpIbcTimeout 1]) bob = bal st5 bob) /\
  (let o := OpWarpSend XOk bob tokA 1 (replicate 32 Byte.x01) 40 in succeeds cfg0 st5 o = true /\
   succeeds cfg0 (after st5 o) (OpWarpRecv tokA bob 40) = true) /\
  (* issued 1000 at index 1.1: 909 for alice and 910 in total; the redemption takes 910 from both *)
  (let o := issue 81 alice 1000 1100000000000 in let o' := OpTransfer true alice0 2 eth_token (replicate 32 Byte.x66) (Some 1000) in
   succeeds cfg0 st2 o = true /\ succeeds cfg0 (after st2 o) o' = true /\ supply (run cfg0 st2 [o; o']) = supply st2 /\
   prin (run cfg0 st2 [o; o']) alice = prin st2 alice - 1) /\
  stake st2 alice STAKED = 0 /\ succeeds cfg0 st2 (OpLock alice0 STAKED (Some 333)) = true /\
  succeeds cfg0 (after st2 (OpLock alice0 STAKED (Some 333))) (OpUnlock alice0 STAKED (Some 333)) = true /\
  prin (after st2 (OpLock alice0 STAKED (Some 333))) StakedA = 303 /\
  vault_total (after st2 (OpLock alice0 STAKED (Some 333))) STAKED = 302.
Proof. vm_compute. repeat split; reflexivity. Qed.
