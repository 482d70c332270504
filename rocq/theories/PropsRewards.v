(** C34-C37: rewards of the flexible vault, and the time after season one. *)
From Verif Require Import Spec Concrete SeasonP PropsVaults.

(** alice and bob hold flexible positions while the index rises twice. *)
Definition ops_reward : list op :=
  [OpTime 20; OpLock bob0 FLEXIBLE (Some 20000); reindex 21 1200000000000; reindex 22 1300000000000].
Definition ops4 : list op := ops1 ++ [reindex 3 1100000000000] ++ ops_vault ++ ops_reward.
Definition st4 : state := run cfg0 init0 ops4.
Lemma reach4 : reachable cfg0 st4.
Proof. exact (reach0 ops4). Qed.

(** * C34 *)
Theorem C34_backed : forall c s0 ops, chain_ok c -> fresh c s0 -> Forall flexible_small (history c s0 ops) ->
  let s := run c s0 ops in
  (forall i r, rewards s !! i = Some r -> 0 <= rw_rewards r) /\ remaining_rewards s <= bal s FlexibleA.
Proof. exact rewards_backed. Qed.
Print Assumptions C34_backed.
Theorem C34_payout : forall c s0 ops a t p x, chain_ok c -> fresh c s0 -> Forall flexible_small (history c s0 ops) ->
  let s := run c s0 ops in
  ordinary_account a -> positions s !! (a, FLEXIBLE, t) = Some p -> 0 < x <= pos_amount p ->
  match claim_rewards a p x s with Err _ _ => False | _ => True end.
Proof. exact reward_payout. Qed.
Print Assumptions C34_payout.
Theorem C34_records : forall c s s' o, chain_ok c -> reachable c s -> succeeds_with c s o s' ->
  (forall i r, rewards s !! i = Some r -> exists r', rewards s' !! i = Some r' /\
     rw_index r' = i /\ rw_rewards r' <= rw_rewards r /\ rw_total r' <= rw_total r) /\
  (forall i r, rewards s !! i = None -> rewards s' !! i = Some r -> current_index s < i <= current_index s' /\ rw_index r = i) /\
  records_paid s s' = distributed s' - distributed s.
Proof. exact records_kept. Qed.
Print Assumptions C34_records.
Example C34_backed_ex : fresh cfg0 init0 /\ Forall flexible_small (history cfg0 init0 ops4) /\
  remaining_rewards st4 = 165 /\ bal st4 FlexibleA = 165 /\ remaining_at st4 1200000000000 = 83 /\
  (let s := after st4 (OpUnlock bob0 FLEXIBLE (Some 20000)) in
   remaining_rewards s = 87 /\ bal s FlexibleA = 87 /\ records_paid st4 s = 78 /\ distributed s = 78).
Proof.
  split; [apply init0_fresh|]. split; [repeat constructor; vm_compute; congruence|]. vm_compute. auto 10.
Qed.
Example C34_payout_ex : ordinary_account bob /\
  match positions st4 !! (bob, FLEXIBLE, 1030) with
  | Some p => match claim_rewards bob p (pos_amount p) st4 with Ok s' _ => bal s' bob = bal st4 bob + 78 | _ => False end
  | None => False
  end.
Proof. split; [done|]. vm_compute. reflexivity. Qed.

(** * C35 *)
Theorem C35_incomplete_cycle : forall c s s' g b amount, chain_ok c -> reachable c s -> c_dec c g = Some (AUser b) ->
  succeeds_with c s (OpUnlock g FLEXIBLE amount) s' ->
  bal s' FlexibleA = bal s FlexibleA - records_paid s s' /\ dom (rewards s') = dom (rewards s) /\
  (forall i, i = current_index s \/
     (forall t p, positions s !! (AUser b, FLEXIBLE, t) = Some p -> amount_at s' (AUser b, FLEXIBLE, t) < pos_amount p -> i <= pos_index p) ->
     remaining_at s' i = remaining_at s i).
Proof. exact incomplete_cycle. Qed.
Print Assumptions C35_incomplete_cycle.
Theorem C35_same_index : forall c s s' g b amount, chain_ok c -> reachable c s -> c_dec c g = Some (AUser b) ->
  (forall t p, positions s !! (AUser b, FLEXIBLE, t) = Some p -> pos_index p = current_index s) ->
  succeeds_with c s (OpUnlock g FLEXIBLE amount) s' ->
  bal s' FlexibleA = bal s FlexibleA /\ distributed s' = distributed s /\ forall i, remaining_at s' i = remaining_at s i.
Proof. exact same_index_no_reward. Qed.
Print Assumptions C35_same_index.
(** bob's stay covers the cycle of 1.2 but not the one of 1.3; staying at one index
    earns nothing although records exist. *)
Example C35_incomplete_cycle_ex :
  (let s := after st4 (OpUnlock bob0 FLEXIBLE (Some 20000)) in
   remaining_at s 1200000000000 = 5 /\ remaining_at s 1300000000000 = remaining_at st4 1300000000000) /\
  (let s1 := run cfg0 st4 [OpUnlock bob0 FLEXIBLE (Some 20000); OpLock bob0 FLEXIBLE (Some 20000)] in
   let s2 := after s1 (OpUnlock bob0 FLEXIBLE (Some 20000)) in
   succeeds cfg0 s1 (OpUnlock bob0 FLEXIBLE (Some 20000)) = true /\ remaining_rewards s1 = 87 /\
   bal s2 FlexibleA = bal s1 FlexibleA /\ bal s2 bob = bal s1 bob + 20000).
Proof. vm_compute. auto 10. Qed.

(** * C36 *)
Theorem C36_pending : forall c s s' g b t p, chain_ok c -> reachable c s -> c_dec c g = Some (AUser b) ->
  (forall t' p', positions s !! (AUser b, FLEXIBLE, t') = Some p' <-> t' = t /\ p' = p) -> 0 < prin s FlexibleA ->
  succeeds_with c s (OpUnlock g FLEXIBLE (Some (pos_amount p))) s' ->
  exists r, q_pending_rewards_by_provider c g s = Ok s (r, [(pos_amount p, r)]) /\
    bal s' FlexibleA = bal s FlexibleA - r /\ distributed s' = distributed s + r.
Proof. exact pending_exact. Qed.
Print Assumptions C36_pending.
(** A query that returns leaves the state as it was. *)
Definition reads {A} (q : M A) : Prop := forall s s' r, q s = Ok s' r -> s' = s.
Theorem C36_queries_read : forall c, reads q_index /\ reads q_paused /\ (forall a, reads (q_principal c a)) /\
  (forall a, reads (q_yield c a)) /\ reads q_stats /\ reads q_owner /\ reads q_portal_paused /\ reads q_peers /\
  (forall ch, reads (q_destination_tokens ch)) /\ reads q_nonce /\ (forall p id, reads (q_yield_recipient p id)) /\
  (forall p id, reads (q_retry_amount p id)) /\ reads q_pending_rewards /\ (forall a, reads (q_pending_rewards_by_provider c a)).
Proof. exact queries_read. Qed.
Print Assumptions C36_queries_read.
Example C36_pending_ex : 0 < prin st4 FlexibleA /\
  (exists p, positions st4 !! (bob, FLEXIBLE, 1030) = Some p /\ pos_amount p = 20000 /\
     positions_of st4 bob FLEXIBLE = [p]) /\
  match q_pending_rewards_by_provider cfg0 bob0 st4 with Ok _ r => r = (78, [(20000, 78)]) | _ => False end /\
  bal (after st4 (OpUnlock bob0 FLEXIBLE (Some 20000))) FlexibleA = bal st4 FlexibleA - 78.
Proof. split; [done|]. split; [eexists; vm_compute; auto|]. vm_compute. auto. Qed.

(** * C37 *)
Theorem C37_closed : forall c s g amount, v_ended (st_vaults s) = true ->
  rejected c s (OpLock g FLEXIBLE amount) /\ rejected c s (OpUnlock g FLEXIBLE amount).
Proof. exact flexible_closed. Qed.
Print Assumptions C37_closed.
Theorem C37_no_records : forall c s l, chain_ok c -> reachable c s -> v_ended (st_vaults s) = true ->
  v_ended (st_vaults (run c s l)) = true /\ rewards (run c s l) = rewards s.
Proof. exact season_over_run. Qed.
Print Assumptions C37_no_records.
Theorem C37_collector : forall c s s' x bz i, chain_ok c -> reachable c s -> v_ended (st_vaults s) = true ->
  bystander (v_collector (st_vaults s)) -> v_collector (st_vaults s) <> StakedA ->
  carried_index c bz = Some i -> succeeds_with c s (OpDeliver x bz) s' ->
  let z := floor_div (prin s StakedA * i) unit_index - bal s StakedA in
  bal s' StakedA = bal s StakedA /\
  bal s' (v_collector (st_vaults s)) = bal s (v_collector (st_vaults s)) + (if z <=? 1 then 0 else z).
Proof. exact collector_paid. Qed.
Print Assumptions C37_collector.
(** The same chain started after the end of season one. *)
Definition init_end : state := init0 <| st_vaults; v_ended := true |>.
Lemma init_end_fresh : fresh cfg0 init_end.
Proof. constructor; try done. Qed.
Definition ops_end : list op := ops1 ++ [OpLock bob0 STAKED (Some 50000)].
Definition st_end : state := run cfg0 init_end ops_end.
Example C37_collector_ex : reachable cfg0 st_end /\ bystander (v_collector (st_vaults st_end)) /\
  v_collector (st_vaults st_end) <> StakedA /\ carried_index cfg0 (index_vaa 3 1100000000000) = Some 1100000000000 /\
  succeeds cfg0 st_end (OpLock alice0 FLEXIBLE (Some 50000)) = false /\
  (let s := after st_end (reindex 3 1100000000000) in
   current_index s = 1100000000000 /\ bal s StakedA = 50000 /\ bal s (v_collector (st_vaults st_end)) = 5000 /\ size (rewards s) = 0%nat).
Proof.
  split; [exists init_end, ops_end; split; [apply init_end_fresh|reflexivity]|].
  split; [vm_compute; repeat split; congruence|]. split; [vm_compute; congruence|]. vm_compute. auto 10.
Qed.
