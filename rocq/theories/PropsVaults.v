(** C27-C33, C45: the vaults. *)
From Verif Require Import Spec Concrete WithdrawP.

(** alice locks twice in each vault, bob once in the staked vault; the index rises
    in between. *)
Definition alice0 : string := enc0 alice.
Definition bob0 : string := enc0 bob.
Definition ops_vault : list op :=
  [OpLock alice0 STAKED (Some 300); OpLock alice0 FLEXIBLE (Some 200); OpTime 10;
   OpLock alice0 STAKED (Some 110); OpLock alice0 FLEXIBLE (Some 1000); OpLock bob0 STAKED (Some 500)].
Definition st3 : state := run cfg0 st2 ops_vault.
Lemma reach3 : reachable cfg0 st3.
Proof. exact (reach_after cfg0 st2 ops_vault reach2). Qed.

(** * C27 *)
Theorem C27_lock : forall c s s' g v amount, chain_ok c -> reachable c s -> succeeds_with c s (OpLock g v amount) s' ->
  exists b x, c_dec c g = Some (AUser b) /\ amount = Some x /\ a_vault v /\ lock_open s v /\ c_min_lock c <= x <= bal s (AUser b) /\
  let a := AUser b in let t := x_now (st_world s) in let h := vault_account c v a t in
  positions s !! (a, v, t) = None /\
  positions s' = <[(a, v, t) := mk_position (floor_div (x * unit_index) (current_index s)) (current_index s) x t]> (positions s) /\
  (forall y, bal s' y = bal s y - on y a x + on y h x) /\
  (forall y, prin s' y = prin s y - on y a (ceil_div (x * unit_index) (current_index s)) + on y h (ceil_div (x * unit_index) (current_index s))) /\
  supply s' = supply s /\ current_index s' = current_index s /\ v_rewards (st_vaults s') = v_rewards (st_vaults s) /\
  st_portal s' = st_portal s /\ st_world s' = st_world s.
Proof. exact lock_effect. Qed.
Print Assumptions C27_lock.
Theorem C27_accepted : forall c s g b v x, chain_ok c -> reachable c s -> c_dec c g = Some (AUser b) ->
  a_vault v -> lock_open s v -> c_min_lock c <= x <= bal s (AUser b) ->
  positions s !! (AUser b, v, x_now (st_world s)) = None -> lock_in_range c s (AUser b) v x ->
  exists s', succeeds_with c s (OpLock g v (Some x)) s'.
Proof. exact lock_accepted. Qed.
Print Assumptions C27_accepted.
Example C27_lock_ex : reachable cfg0 st2 /\
  lock_in_range cfg0 st2 alice FLEXIBLE 200 /\ lock_open st2 FLEXIBLE /\
  (let s := after st2 (OpLock alice0 FLEXIBLE (Some 200)) in
   bal s alice = 999800 /\ bal s (vault_account cfg0 FLEXIBLE alice 1000) = 200 /\
   positions s !! (alice, FLEXIBLE, 1000) = Some (mk_position 181 1100000000000 200 1000)) /\
  succeeds cfg0 (after st2 (OpLock alice0 FLEXIBLE (Some 200))) (OpLock alice0 FLEXIBLE (Some 200)) = false /\
  succeeds cfg0 st2 (OpLock alice0 FLEXIBLE (Some 99)) = false.
Proof.
  split; [apply reach2|]. split; [split; [split|..]; vm_compute; reflexivity|]. split; [split; [|split]; vm_compute; congruence|].
  vm_compute. auto.
Qed.

(** * C28 *)
Theorem C28_unlock : forall c s s' g v amount, chain_ok c -> reachable c s -> succeeds_with c s (OpUnlock g v amount) s' ->
  exists b x, c_dec c g = Some (AUser b) /\ amount = Some x /\ a_vault v /\ unlock_open s v /\
  let a := AUser b in
  0 < x <= stake s a v /\ (c_min_unlock c <= x \/ x = stake s a v) /\
  stake s' a v = stake s a v - x /\ oldest_first s s' a v /\
  (forall k, k.1 <> (a, v) -> positions s' !! k = positions s !! k) /\
  (v = STAKED -> forall y, bal s' y = bal s y - on y StakedA x + on y a x) /\
  (v = FLEXIBLE -> exists R Y, 0 <= R /\ 0 <= Y /\
     bal s' a = bal s a + x + R + Y /\ bal s' FlexibleA = bal s FlexibleA - R /\ bal s' YieldA = bal s YieldA - Y /\
     (forall u t, bal s' (vault_account c FLEXIBLE u t) = bal s (vault_account c FLEXIBLE u t)
         - (amount_at s (u, FLEXIBLE, t) - amount_at s' (u, FLEXIBLE, t))) /\
     (forall y, y <> a -> y <> FlexibleA -> y <> YieldA -> (forall t, y <> vault_account c FLEXIBLE a t) -> bal s' y = bal s y)) /\
  (forall w, total_stake s' w = total_stake s w - (if v =? w then x else 0)) /\
  supply s' = supply s /\ current_index s' = current_index s /\ st_portal s' = st_portal s /\ st_world s' = st_world s.
Proof. intros c s s' g v amount Hc Hr. apply unlock_effect; [done|by apply winv_reachable]. Qed.
Print Assumptions C28_unlock.
(** 350 of alice's 410 staked: the first position is closed, 50 come from the second. *)
Example C28_unlock_ex : reachable cfg0 st3 /\ stake st3 alice STAKED = 410 /\
  (let s := after st3 (OpUnlock alice0 STAKED (Some 350)) in
   bal s alice = bal st3 alice + 350 /\ bal s StakedA = bal st3 StakedA - 350 /\ stake s alice STAKED = 60 /\
   positions s !! (alice, STAKED, 1000) = None /\
   positions s !! (alice, STAKED, 1010) = Some (mk_position 55 1100000000000 60 1010)) /\
  (let s := after st3 (OpUnlock alice0 FLEXIBLE (Some 250)) in
   bal s alice = bal st3 alice + 250 /\ bal s (vault_account cfg0 FLEXIBLE alice 1000) = 0 /\
   bal s (vault_account cfg0 FLEXIBLE alice 1010) = 950).
Proof. split; [apply reach3|]. vm_compute. auto 10. Qed.

(** * C29 *)
Theorem C29_backed : forall c s, chain_ok c -> reachable c s -> stakes_backed c s.
Proof. exact stakes_are_backed. Qed.
Print Assumptions C29_backed.
Example C29_backed_ex : reachable cfg0 st3 /\ total_stake st3 STAKED = 910 /\ bal st3 StakedA = 910 /\
  bal st3 (vault_account cfg0 FLEXIBLE alice 1010) = 1000.
Proof. split; [apply reach3|]. vm_compute. auto. Qed.

(** * C30 *)
Theorem C30_withdrawal : forall c s g b x, chain_ok c -> reachable c s -> c_dec c g = Some (AUser b) ->
  v_paused (st_vaults s) <> PAUSE_ALL -> v_paused (st_vaults s) <> PAUSE_UNLOCK ->
  0 < x <= stake s (AUser b) STAKED -> c_min_unlock c <= x \/ x = stake s (AUser b) STAKED ->
  withdrawal_in_range s (AUser b) ->
  exists s', succeeds_with c s (OpUnlock g STAKED (Some x)) s'.
Proof. exact staked_withdrawal. Qed.
Print Assumptions C30_withdrawal.
Example C30_withdrawal_ex : reachable cfg0 st3 /\ withdrawal_in_range st3 alice /\ stake st3 alice STAKED = 410 /\
  succeeds cfg0 st3 (OpUnlock alice0 STAKED (Some 410)) = true /\ succeeds cfg0 st3 (OpUnlock alice0 STAKED (Some 411)) = false.
Proof. split; [apply reach3|]. split; [split; vm_compute; reflexivity|]. vm_compute. auto. Qed.

(** * C31 *)
Theorem C31_unlock_rejected : forall c s g v amount,
  v_paused (st_vaults s) = PAUSE_ALL \/ v_paused (st_vaults s) = PAUSE_UNLOCK \/
  (v = FLEXIBLE /\ v_ended (st_vaults s) = true) \/ ~ a_vault v \/ c_dec c g = None \/ amount = None \/
  (exists x, amount = Some x /\ x <= 0) \/
  (exists x a, amount = Some x /\ c_dec c g = Some a /\ (stake s a v < x \/ x < c_min_unlock c /\ x <> stake s a v)) ->
  rejected c s (OpUnlock g v amount) /\ step c s (OpUnlock g v amount) = s.
Proof. exact unlock_rejections. Qed.
Print Assumptions C31_unlock_rejected.
Theorem C31_lock_rejected : forall c s g v amount,
  v_paused (st_vaults s) = PAUSE_ALL \/ v_paused (st_vaults s) = PAUSE_LOCK \/
  (v = FLEXIBLE /\ v_ended (st_vaults s) = true) \/ ~ a_vault v \/ c_dec c g = None \/ amount = None \/
  (exists x, amount = Some x /\ x < c_min_lock c) \/
  (exists x a, amount = Some x /\ c_dec c g = Some a /\ (bal s a < x \/ is_Some (positions s !! (a, v, x_now (st_world s))))) ->
  rejected c s (OpLock g v amount) /\ step c s (OpLock g v amount) = s.
Proof. exact lock_rejections. Qed.
Print Assumptions C31_lock_rejected.
Example C31_rejected_ex :
  succeeds cfg0 st3 (OpUnlock alice0 STAKED (Some 49)) = false /\ succeeds cfg0 st3 (OpUnlock alice0 STAKED (Some 50)) = true /\
  succeeds cfg0 (after st3 (OpUnlock alice0 STAKED (Some 370))) (OpUnlock alice0 STAKED (Some 40)) = true /\
  succeeds cfg0 (after st3 (OpVaultsSetPaused authority PAUSE_UNLOCK)) (OpUnlock alice0 STAKED (Some 50)) = false /\
  succeeds cfg0 (after st3 (OpVaultsSetPaused authority PAUSE_LOCK)) (OpUnlock alice0 STAKED (Some 50)) = true /\
  succeeds cfg0 st3 (OpLock bob0 FLEXIBLE (Some 100)) = true /\ succeeds cfg0 st3 (OpLock bob0 3 (Some 100)) = false.
Proof. vm_compute. auto 10. Qed.

(** * C32 *)
Theorem C32_users : forall c s v, chain_ok c -> reachable c s -> a_vault v ->
  vault_users s v = Z.of_nat (size (stakers s v)) mod 2 ^ 64.
Proof. exact users_counted. Qed.
Print Assumptions C32_users.
Theorem C32_users_exact : forall c s v, chain_ok c -> reachable c s -> a_vault v ->
  Z.of_nat (size (stakers s v)) < 2 ^ 64 -> vault_users s v = Z.of_nat (size (stakers s v)).
Proof. intros c s v Hc Hr Hv Hs. rewrite (users_counted c s v Hc Hr Hv). apply Z.mod_small. lia. Qed.
Print Assumptions C32_users_exact.
Example C32_users_ex : reachable cfg0 st3 /\ size (stakers st3 STAKED) = 2%nat /\ vault_users st3 STAKED = 2 /\ vault_users st3 FLEXIBLE = 1 /\
  vault_users (after st3 (OpUnlock alice0 STAKED (Some 350))) STAKED = 2 /\ vault_users (after st3 (OpUnlock alice0 STAKED (Some 410))) STAKED = 1.
Proof. split; [apply reach3|]. vm_compute. auto 10. Qed.

(** * C33 *)
(** Cutting a position rounds twice, so the statistic keeps a unit after the last
    position is gone (finding). *)
Theorem C33_totals_refuted : exists c s, chain_ok c /\ reachable c s /\
  positions s = ∅ /\ total_stake_principal s STAKED = 0 /\ vault_total s STAKED = 1.
Proof.
  exists cfg0, (run cfg0 st2 [OpLock alice0 STAKED (Some 110); OpUnlock alice0 STAKED (Some 54); OpUnlock alice0 STAKED (Some 56)]).
  split; [apply chain0_ok|]. split; [apply reach_after, reach2|].
  split; [apply map_size_empty_inv; vm_compute; reflexivity|]. vm_compute. auto.
Qed.
Print Assumptions C33_totals_refuted.
(** What holds: the statistic never falls below the positions and exceeds them by
    at most one unit per successful unlock of the vault; the flexible total equals the
    flexible statistic. Missing: equality of statistic and positions. *)
Theorem C33_totals_partial : forall c s0 ops v, chain_ok c -> fresh c s0 -> a_vault v ->
  let s := run c s0 ops in
  total_stake_principal s v <= vault_total s v <= total_stake_principal s v + count_ops (unlocks v) c s0 ops /\
  v_total_flex (st_vaults s) = vault_total s FLEXIBLE.
Proof. exact totals_drift. Qed.
Print Assumptions C33_totals_partial.
Example C33_totals_partial_ex : total_stake_principal st3 STAKED = 272 + 100 + 454 /\ vault_total st3 STAKED = 826 /\
  v_total_flex (st_vaults st3) = 181 + 909.
Proof. vm_compute. auto. Qed.

(** * C45 *)
Theorem C45_private : forall c a t a' t', codec_ok c ->
  vault_account c FLEXIBLE a t = vault_account c FLEXIBLE a' t' -> a = a' /\ t = t'.
Proof. intros c a t a' t' Hc. by apply account_private. Qed.
Print Assumptions C45_private.
Theorem C45_separate : forall c a t, let h := vault_account c FLEXIBLE a t in
  h <> ModuleA /\ h <> YieldA /\ h <> StakedA /\ h <> FlexibleA /\ h <> WarpA /\
  (forall b, h <> AUser b) /\ (forall p ch, h <> AEscrow p ch).
Proof.
  intros c a t h. destruct (flex_account_not c a t) as (? & ? & ? & ? & ? & ? & ? & ?). repeat (split; [done|]). done.
Qed.
Print Assumptions C45_separate.
(** The account used by the code is that one, however the signer is written. *)
Theorem C45_account : forall c g a v t, codec_ok c -> c_dec c g = Some a -> position_account g v t = vault_account c v a t.
Proof. intros c g a v t Hc D. by apply posacct. Qed.
Print Assumptions C45_account.
Example C45_private_ex : vault_account cfg0 FLEXIBLE alice 12 <> vault_account cfg0 FLEXIBLE alice 1 /\
  position_account alice0 FLEXIBLE 12 = vault_account cfg0 FLEXIBLE alice 12.
Proof. split; [vm_compute; congruence|vm_compute; reflexivity]. Qed.
