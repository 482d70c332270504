(** C49-C51: records of season one, payout of the flexible vault, withdrawals from it. *)
From Verif Require Import Spec Concrete FlexP PayoutP FlexLiveP PropsVaults PropsRewards.

(** * C49 *)
Theorem C49_record : forall c s s' x bz i, chain_ok c -> reachable c s -> v_ended (st_vaults s) = false ->
  carried_index c bz = Some i -> succeeds_with c s (OpDeliver x bz) s' ->
  let yf := claim_at s i FlexibleA in let ys := claim_at s i StakedA in
  rewards s' = <[i := mk_reward i (v_total_flex (st_vaults s)) (yf + ys)]> (rewards s) /\
  bal s' FlexibleA = bal s FlexibleA + yf + ys /\ bal s' StakedA = bal s StakedA /\
  (i <= 10 ^ 18 ->
     prin s' StakedA = prin s StakedA - floor_div (ys * unit_index) i /\
     prin s' FlexibleA = prin s FlexibleA + floor_div (ys * unit_index) i).
Proof. exact season_record_exact. Qed.
Print Assumptions C49_record.
Theorem C49_token_record : forall c s s' x bz t, chain_ok c -> reachable c s -> v_ended (st_vaults s) = false ->
  carried_token c bz = Some t -> succeeds_with c s (OpDeliver x bz) s' -> let i := tk_index t in
  rewards s' = rewards s \/
  rewards s' = <[i := mk_reward i (v_total_flex (st_vaults s)) (claim_at s i FlexibleA + claim_at s i StakedA)]> (rewards s).
Proof. exact season_token. Qed.
Print Assumptions C49_token_record.
Definition i14 : Z := 1400000000000.
Example C49_record_ex : reachable cfg0 st4 /\ v_ended (st_vaults st4) = false /\ carried_index cfg0 (index_vaa 23 i14) = Some i14 /\
  succeeds cfg0 st4 (reindex 23 i14) = true /\ claim_at st4 i14 FlexibleA = 12 /\ claim_at st4 i14 StakedA = 71 /\
  (let s := after st4 (reindex 23 i14) in
   rewards s !! i14 = Some (mk_reward i14 19271 83) /\ bal st4 FlexibleA = 165 /\ bal s FlexibleA = 248 /\
   prin st4 StakedA = 701 /\ prin s StakedA = 651 /\ prin st4 FlexibleA = 127 /\ prin s FlexibleA = 177).
Proof. split; [apply reach4|]. vm_compute. repeat split; reflexivity. Qed.
Example C49_token_record_ex : option_map tk_index (carried_token cfg0 (token_vaa 24 alice 100 i14)) = Some i14 /\
  succeeds cfg0 st4 (issue 24 alice 100 i14) = true /\
  rewards (after st4 (issue 24 alice 100 i14)) !! i14 = Some (mk_reward i14 19271 83).
Proof. vm_compute. repeat split; reflexivity. Qed.

(** * C50 *)
Theorem C50_payout : forall c s s' g x b, chain_ok c -> reachable c s -> c_dec c g = Some (AUser b) ->
  succeeds_with c s (OpUnlock g FLEXIBLE (Some x)) s' -> let a := AUser b in
  exists ts, touches s s' a ts /\
    let q := fold_left (pay_part c s s' a) ts (payout_start s a) in
    po_stake q = x /\ rewards s' = po_records q /\
    bal s' a = bal s a + x + po_rewards q + po_yield q /\ bal s' FlexibleA = bal s FlexibleA - po_rewards q /\
    bal s' YieldA = bal s YieldA - po_yield q /\
    prin s' a = po_user q /\ prin s' FlexibleA = po_vault q /\
    (forall t, t ∈ ts -> prin s' (vault_account c FLEXIBLE a t) =
       prin s (vault_account c FLEXIBLE a t) - principal_of s (part_taken s s' a t + part_yield c s a t)) /\
    (forall z, z <> a -> z <> FlexibleA -> (forall t, t ∈ ts -> z <> vault_account c FLEXIBLE a t) -> prin s' z = prin s z) /\
    distributed s' = distributed s + po_rewards q /\
    v_total_flex (st_vaults s') = v_total_flex (st_vaults s) - po_principal q /\
    vault_total s' FLEXIBLE = vault_total s FLEXIBLE - po_principal q /\ vault_total s' STAKED = vault_total s STAKED.
Proof. exact flexible_payout. Qed.
Print Assumptions C50_payout.
(** A share is the pro-rata part of the record, less at most two units and plus at most one. *)
Theorem C50_pro_rata : forall r ap, 0 < rw_total r <= 10 ^ 18 -> 0 <= rw_rewards r -> 0 <= ap <= rw_total r ->
  rw_rewards r * ap - 2 * rw_total r < reward_share r ap * rw_total r <= rw_rewards r * ap + rw_total r.
Proof. exact share_pro_rata. Qed.
Print Assumptions C50_pro_rata.
(** bob takes 15000 of 20000: 58 of the 83 of the older record, nothing of the newer one. *)
Example C50_payout_ex : let s := after st4 (OpUnlock bob0 FLEXIBLE (Some 15000)) in
  c_dec cfg0 bob0 = Some bob /\ succeeds cfg0 st4 (OpUnlock bob0 FLEXIBLE (Some 15000)) = true /\
  part_taken st4 s bob 1030 = 15000 /\
  (let q := pay_part cfg0 st4 s bob (payout_start st4 bob) 1030 in
   po_stake q = 15000 /\ po_rewards q = 58 /\ po_yield q = 3636 /\ po_principal q = 13636 /\
   po_user q = prin s bob /\ po_vault q = 82) /\
  bal s bob = bal st4 bob + 18694 /\
  rewards s !! 1200000000000 = Some (mk_reward 1200000000000 5635 25) /\
  rewards s !! 1300000000000 = Some (mk_reward 1300000000000 5635 82).
Proof. vm_compute. repeat split; reflexivity. Qed.
(** alice takes 400 from two positions. *)
Example C50_payout_two_ex : let s := after st4 (OpUnlock alice0 FLEXIBLE (Some 400)) in
  succeeds cfg0 st4 (OpUnlock alice0 FLEXIBLE (Some 400)) = true /\
  part_taken st4 s alice 1000 = 200 /\ part_taken st4 s alice 1010 = 200 /\
  (let q := fold_left (pay_part cfg0 st4 s alice) [1000; 1010] (payout_start st4 alice) in
   po_stake q = 400 /\ bal s alice = bal st4 alice + 400 + po_rewards q + po_yield q /\ 0 < po_yield q).
Proof. vm_compute. repeat split; reflexivity. Qed.
Example C50_pro_rata_ex : reward_share (mk_reward 1200000000000 19271 83) 13636 = 58 /\ 83 * 13636 / 19271 = 58.
Proof. split; vm_compute; reflexivity. Qed.

(** * C51 *)
(** alice locks 100 at index 3: the yield account, which is empty, owes her position 2. *)
Definition lock3_ops : list op :=
  setup ++ [reindex 1 3000000000000; issue 2 alice 1000 3000000000000; OpLock alice0 FLEXIBLE (Some 100)].
Theorem C51_withdrawal_refuted : exists s, chain_ok cfg0 /\ reachable cfg0 s /\ v_paused (st_vaults s) = PAUSE_NONE /\ v_ended (st_vaults s) = false /\
  stake s alice FLEXIBLE = 100 /\ c_min_unlock cfg0 <= 100 /\ waiting_yield cfg0 s alice = 2 /\ bal s YieldA = 0 /\
  succeeds cfg0 s (OpUnlock alice0 FLEXIBLE (Some 100)) = false.
Proof.
  exists (run cfg0 init0 lock3_ops). split; [apply chain0_ok|]. split; [apply reach0|].
  vm_compute. repeat split; try reflexivity. congruence.
Qed.
Print Assumptions C51_withdrawal_refuted.
(** With the yield at hand the withdrawal succeeds. *)
Theorem C51_withdrawal_partial : forall c s0 ops g b x, chain_ok c -> fresh c s0 -> Forall flexible_small (history c s0 ops) ->
  let s := run c s0 ops in let a := AUser b in c_dec c g = Some a ->
  v_paused (st_vaults s) <> PAUSE_ALL -> v_paused (st_vaults s) <> PAUSE_UNLOCK -> v_ended (st_vaults s) = false ->
  0 < x <= stake s a FLEXIBLE -> c_min_unlock c <= x \/ x = stake s a FLEXIBLE ->
  waiting_yield c s a <= bal s YieldA -> (forall t, c_blocked c (vault_account c FLEXIBLE a t) = false) ->
  flexible_in_range s ->
  exists s', succeeds_with c s (OpUnlock g FLEXIBLE (Some x)) s'.
Proof. exact flexible_withdrawal. Qed.
Print Assumptions C51_withdrawal_partial.
Example C51_withdrawal_ex : flexible_in_range st4 /\ waiting_yield cfg0 st4 alice = 219 /\ bal st4 YieldA = 449835 /\ stake st4 alice FLEXIBLE = 1200 /\
  v_paused (st_vaults st4) = PAUSE_NONE /\ (forall t, c_blocked cfg0 (vault_account cfg0 FLEXIBLE alice t) = false) /\
  succeeds cfg0 st4 (OpUnlock alice0 FLEXIBLE (Some 1200)) = true.
Proof.
  split.
  { constructor; [vm_compute; reflexivity| |vm_compute; reflexivity]. intros x. unfold prin.
    assert (H : map_Forall (fun _ v => Z.abs v < 2 ^ 189) (d_principal (st_dollar st4))) by (apply (bool_decide_unpack _); vm_compute; exact I).
    destruct (d_principal (st_dollar st4) !! x) as [v|] eqn:E; [exact (H _ _ E)|reflexivity]. }
  split; [vm_compute; reflexivity|]. split; [vm_compute; reflexivity|]. split; [vm_compute; reflexivity|]. split; [vm_compute; reflexivity|].
  split; [intros t; reflexivity|vm_compute; reflexivity].
Qed.
