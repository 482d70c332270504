(** C62: everything an index update changes. *)
From Verif Require Import Spec Concrete UpdateP PropsVaults PropsRewards PropsExt PropsLive.

(** * C62 *)
Theorem C62_index : forall c s s' x bz i, chain_ok c -> reachable c s ->
  (v_ended (st_vaults s) = true -> bystander (v_collector (st_vaults s))) ->
  carried_index c bz = Some i -> exec c (OpDeliver x bz) s = Ok s' tt ->
  exists v, c_vaa c bz = Some v /\ index_effect c x s s' i (va_digest v).
Proof. exact index_update_applied. Qed.
Print Assumptions C62_index.
(** A token message with a higher index: the update, then the issuance. Without the
    conditions the update may fail and be ignored (C44). *)
Theorem C62_token : forall c s s' x bz t, chain_ok c -> reachable c s ->
  carried_token c bz = Some t -> current_index s < tk_index t ->
  claims_unblocked c -> routes_usable c s -> update_in_range c s ->
  (v_ended (st_vaults s) = true -> bystander (v_collector (st_vaults s))) ->
  supply s <= floor_div (total_principal s * tk_index t) unit_index ->
  index_claims s (tk_index t) <= bal s YieldA + (floor_div (total_principal s * tk_index t) unit_index - supply s) ->
  exec c (OpDeliver x bz) s = Ok s' tt ->
  exists v s1, c_vaa c bz = Some v /\ index_effect c x s s1 (tk_index t) (va_digest v) /\
    issue_effect s1 s' (c_acct c (sl_bytes (tk_recipient t))) (tk_amount t).
Proof. exact token_update_applied. Qed.
Print Assumptions C62_token.

(** A channel with 200000 in escrow, two hyperlane routes, the first refused by the warp
    module. 150000 are minted; the channel gets 20000 and a packet, the second route a
    message over 4999, and the 9999 of the first wait for the next update. *)
Example C62_index_ex : reachable cfg0 st5 /\ v_ended (st_vaults st5) = false /\
  carried_index cfg0 (index_vaa 31 i11) = Some i11 /\
  (let s1 := after st5 (OpDeliver nohyp (index_vaa 31 i11)) in
   succeeds cfg0 st5 (OpDeliver nohyp (index_vaa 31 i11)) = true /\
   index_minted st5 i11 = 150000 /\ index_claims st5 i11 = 35000 /\ bal s1 YieldA = 115000 /\
   bal s1 (AEscrow transfer_port "channel-0") = 220000 /\ bal s1 WarpA = bal st5 WarpA + 15000 /\
   length (x_inflight (st_world s1)) = 2%nat /\ length (x_dispatched (st_world s1)) = 3%nat /\
   hm_amount <$> omap (route_message cfg0 nohyp st5 i11) [idA; idB] = [4999] /\
   hm_amount <$> omap (route_attempt cfg0 st5 i11) [idA; idB] = [9999; 4999] /\
   retry_of s1 HYPERLANE idA = 9999 /\ retry_of s1 HYPERLANE idB = 0 /\ retry_of s1 IBC "channel-0" = 0 /\
   x_tokens (st_world s1) !! tokA = Some 100000 /\ x_tokens (st_world s1) !! tokB = Some 54999 /\
   (** the next update sends the waiting amount and the new share *)
   (let s2 := after s1 (reindex 32 1200000000000) in
    retry_of s2 HYPERLANE idA = 0 /\ external_of s2 HYPERLANE idA = 9999 + 9677 /\
    hm_amount <$> omap (route_message cfg0 allok s1 1200000000000) [idA; idB] = [9999 + 9677; 5322])).
Proof. split; [apply reach5|]. vm_compute. repeat split; reflexivity. Qed.
Example C62_season_two_ex : reachable cfg0 st_end /\ v_ended (st_vaults st_end) = true /\
  bystander (v_collector (st_vaults st_end)) /\
  (let s := after st_end (reindex 3 i11) in succeeds cfg0 st_end (reindex 3 i11) = true /\
   claim_at st_end i11 StakedA = 5000 /\ bal s (v_collector (st_vaults st_end)) = 5000 /\
   prin s (v_collector (st_vaults st_end)) = 4546 /\ prin s StakedA = prin st_end StakedA - 4546 /\
   ceil_div (5000 * unit_index) i11 = 4546).
Proof.
  split; [exists init_end, ops_end; split; [apply init_end_fresh|reflexivity]|]. split; [vm_compute; reflexivity|].
  split; [vm_compute; repeat split; congruence|]. vm_compute. repeat split; reflexivity.
Qed.
Example C62_token_ex : reachable cfg0 st5 /\ option_map tk_index (carried_token cfg0 (token_vaa 31 bob 1000 i11)) = Some i11 /\
  claims_unblocked cfg0 /\ routes_usable cfg0 st5 /\ update_in_range cfg0 st5 /\ v_ended (st_vaults st5) = false /\
  supply st5 <= floor_div (total_principal st5 * i11) unit_index /\
  index_claims st5 i11 <= bal st5 YieldA + (floor_div (total_principal st5 * i11) unit_index - supply st5) /\
  (let s := after st5 (issue 31 bob 1000 i11) in succeeds cfg0 st5 (issue 31 bob 1000 i11) = true /\
   supply s = supply st5 + 150000 + 1000 /\ bal s bob = bal st5 bob + 1000 /\ length (x_inflight (st_world s)) = 2%nat).
Proof.
  destruct C44_applied_ex as (H1 & _ & _ & H2 & H3 & H4 & H5 & H6 & H7 & _).
  split; [exact H1|]. split; [vm_compute; reflexivity|]. split; [exact H2|]. split; [exact H3|]. split; [exact H4|].
  split; [exact H5|]. split; [exact H6|]. split; [exact H7|]. vm_compute. auto.
Qed.
