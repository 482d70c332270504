(** C57 and C59: cover of what is owed to other chains. *)
From Verif Require Import Spec Concrete CoverP PropsExt.

(** * C57 *)
(** In [halfway] a hyperlane dispatch fails after the token has been written. The
    yield is then both in the collateral of its token and in the retry amount, and the
    next update adds it to the collateral a second time. *)
Definition halfway : oracle := mk_oracle (fun _ => XOk) (fun _ => XFail).
Definition ops_half : list op := ops5 ++ [OpDeliver halfway (index_vaa 31 1100000000000); reindex 32 1200000000000].
Definition sth : state := run cfg0 init0 ops_half.
Theorem C57_covered_refuted : exists c s, chain_ok c /\ reachable c s /\ bal s WarpA < hyp_collateral s + hyp_waiting s.
Proof. exists cfg0, sth. split; [apply chain0_ok|]. split; [apply reach0|]. by vm_compute. Qed.
Print Assumptions C57_covered_refuted.
(** The last holders cannot leave: after everything of the second token has been
    released, the first token's collateral is more than the account holds. *)
Theorem C57_release_refuted : exists c s tok col a, chain_ok c /\ reachable c s /\
  x_tokens (st_world s) !! tok = Some col /\ 0 < col /\ ordinary_account a /\ c_blocked c a = false /\
  payment_in_range s WarpA a /\ succeeds c s (OpWarpRecv tok a col) = false.
Proof.
  exists cfg0, (run cfg0 init0 (ops_half ++ [OpWarpRecv tokB bob 64997])), tokA, 129998, alice.
  split; [apply chain0_ok|]. split; [apply reach0|]. split; [by vm_compute|]. split; [lia|]. split; [done|]. split; [done|].
  split; [constructor; by vm_compute|by vm_compute].
Qed.
Print Assumptions C57_release_refuted.
Example C57_covered_refuted_ex :
  let s1 := run cfg0 init0 (ops5 ++ [OpDeliver halfway (index_vaa 31 1100000000000)]) in
  hyp_collateral st5 = 150000 /\ hyp_waiting st5 = 0 /\ bal st5 WarpA = 150000 /\
  hyp_collateral s1 = 164998 /\ hyp_waiting s1 = 14998 /\ bal s1 WarpA = 165000 /\
  hyp_collateral sth = 194995 /\ hyp_waiting sth = 0 /\ bal sth WarpA = 180000.
Proof. vm_compute. repeat split; reflexivity. Qed.
(** Missing from the full statement: histories in which a dispatch fails half way. *)
Theorem C57_covered_partial : forall c s0 ops, chain_ok c -> fresh c s0 -> Forall atomic_dispatch ops ->
  let s := run c s0 ops in hyp_collateral s + hyp_waiting s <= bal s WarpA.
Proof. exact warp_covered. Qed.
Print Assumptions C57_covered_partial.
Theorem C57_release_partial : forall c s0 ops tok col a z, chain_ok c -> fresh c s0 -> Forall atomic_dispatch ops -> let s := run c s0 ops in
  x_tokens (st_world s) !! tok = Some col -> 0 < z <= col -> ordinary_account a -> c_blocked c a = false ->
  payment_in_range s WarpA a -> succeeds c s (OpWarpRecv tok a z) = true.
Proof. exact release_succeeds. Qed.
Print Assumptions C57_release_partial.
(** A dispatch that is rejected before anything is written is harmless. *)
Definition ops_rejected : list op := ops5 ++ [OpDeliver nohyp (index_vaa 31 1100000000000); reindex 32 1200000000000].
Lemma rejected_atomic : Forall atomic_dispatch ops_rejected.
Proof. repeat constructor; cbn; intros; repeat case_decide; done. Qed.
Example C57_covered_partial_ex : fresh cfg0 init0 /\ Forall atomic_dispatch ops_rejected /\
  let s1 := run cfg0 init0 (ops5 ++ [OpDeliver nohyp (index_vaa 31 1100000000000)]) in
  let s := run cfg0 init0 ops_rejected in
  hyp_collateral s1 = 154999 /\ hyp_waiting s1 = 9999 /\ bal s1 WarpA = 165000 /\
  hyp_collateral s = 179997 /\ hyp_waiting s = 0 /\ bal s WarpA = 180000.
Proof. split; [apply init0_fresh|]. split; [apply rejected_atomic|]. vm_compute. repeat split; reflexivity. Qed.
Example C57_release_partial_ex : let s := run cfg0 init0 ops_rejected in
  Forall atomic_dispatch ops_rejected /\ x_tokens (st_world s) !! tokA = Some 119676 /\ ordinary_account alice /\ c_blocked cfg0 alice = false /\
  payment_in_range s WarpA alice /\ succeeds cfg0 s (OpWarpRecv tokA alice 119676) = true /\
  bal (after s (OpWarpRecv tokA alice 119676)) alice = bal s alice + 119676 /\ succeeds cfg0 s (OpWarpRecv tokA alice 119677) = false.
Proof.
  split; [apply rejected_atomic|]. split; [by vm_compute|]. split; [done|]. split; [done|]. split; [constructor; by vm_compute|].
  vm_compute. repeat split; reflexivity.
Qed.

(** * C59 *)
Theorem C59_covered : forall c s0 ops ch, chain_ok c -> fresh c s0 -> let s := run c s0 ops in
  usdn_in_flight c s ch + usdn_arrived c s ch + retry_of s IBC ch <= bal s (AEscrow transfer_port ch) + usdn_returned c s0 ops ch.
Proof. exact escrow_covered. Qed.
Print Assumptions C59_covered.
Theorem C59_refund : forall c s0 ops n o ch a z rc, chain_ok c -> fresh c s0 -> let s := run c s0 ops in
  usdn_returned c s0 ops ch <= usdn_arrived c s ch ->
  x_inflight (st_world s) !! n = Some (mk_packet transfer_port ch (Some (mk_ft (c_denom c) (Some z) (c_enc c a) rc))) ->
  payment_in_range s (AEscrow transfer_port ch) a -> retry_of s IBC ch < 2 ^ 255 ->
  o = OpIbcTimeout n \/ o = OpIbcAck n AckError -> succeeds c s o = true.
Proof. exact refund_succeeds. Qed.
Print Assumptions C59_refund.
Theorem C59_return : forall c s0 ops ch a z, chain_ok c -> fresh c s0 -> let s := run c s0 ops in
  usdn_returned c s0 ops ch + z <= usdn_arrived c s ch -> 0 < z -> ordinary_account a -> c_blocked c a = false ->
  payment_in_range s (AEscrow transfer_port ch) a -> succeeds c s (OpIbcRecv ch (c_enc c a) z) = true.
Proof. exact return_succeeds. Qed.
Print Assumptions C59_return.
(** Alice's packet arrives, the packet with the yield times out, and part of alice's
    dollars come back. *)
Definition ops_back : list op := ops5 ++ [reindex 31 1100000000000; OpIbcAck 0 AckResult; reindex 32 1200000000000; OpIbcTimeout 0;
  OpIbcRecv "channel-0" (c_enc cfg0 bob) 50000].
Definition stb : state := run cfg0 init0 ops_back.
Example C59_covered_ex :
  usdn_in_flight cfg0 stb "channel-0" = 20000 /\ usdn_arrived cfg0 stb "channel-0" = 200000 /\ retry_of stb IBC "channel-0" = 20000 /\
  bal stb (AEscrow transfer_port "channel-0") = 190000 /\ usdn_returned cfg0 init0 ops_back "channel-0" = 50000.
Proof. vm_compute. repeat split; reflexivity. Qed.
Example C59_refund_ex : exists a z rc,
  x_inflight (st_world stb) !! 0%nat = Some (mk_packet transfer_port "channel-0" (Some (mk_ft (c_denom cfg0) (Some z) (c_enc cfg0 a) rc))) /\
  payment_in_range stb (AEscrow transfer_port "channel-0") a /\ retry_of stb IBC "channel-0" < 2 ^ 255 /\
  succeeds cfg0 stb (OpIbcTimeout 0) = true.
Proof.
  exists (AEscrow transfer_port "channel-0"), 20000, "remote"%string.
  split; [by vm_compute|]. split; [constructor; by vm_compute|]. split; by vm_compute.
Qed.
Example C59_return_ex : ordinary_account carol /\ c_blocked cfg0 carol = false /\ payment_in_range stb (AEscrow transfer_port "channel-0") carol /\
  succeeds cfg0 stb (OpIbcRecv "channel-0" (c_enc cfg0 carol) 150000) = true.
Proof. split; [done|]. split; [done|]. split; [constructor; by vm_compute|by vm_compute]. Qed.
