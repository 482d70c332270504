(** Solvency of the yield account: C11, and the index updates it permits: C44. *)
From Verif Require Import Spec Concrete LiveP SolvencyP PropsVaults PropsRewards PropsExt PropsLive.

(** * C11 The yield account can always pay every claim *)
(** 2000 issued to alice at index 1.1; twenty payments of 1 from alice to bob. Each
    payment moves a principal of 1, which is worth 1.1. *)
Definition short_ops : list op := setup ++ [reindex 1 i11; issue 2 alice 2000 i11] ++ replicate 20 (OpSend alice bob 1).
(** False: bob may claim 2 while the yield account is empty, and the claim is refused. *)
Theorem C11_solvent_refuted : exists s, chain_ok cfg0 /\ reachable cfg0 s /\
  claimable s bob = 2 /\ total_claimable s = 2 /\ bal s YieldA = 0 /\
  d_paused (st_dollar s) = false /\ succeeds cfg0 s (OpClaimYield (c_enc cfg0 bob)) = false.
Proof.
  exists (run cfg0 init0 short_ops). split; [apply chain0_ok|]. split; [apply reach0|].
  vm_compute. repeat split; reflexivity.
Qed.
Print Assumptions C11_solvent_refuted.

(** What holds: the claims of all accounts exceed the balance of the yield account
    by at most 1 plus three units of principal per transfer ever made. Missing: the claims
    are not covered exactly, because every transfer rounds the moved principal. *)
Theorem C11_bound_partial c s : chain_ok c -> reachable c s ->
  total_claimable s * unit_index <= (bal s YieldA + 1) * unit_index + 3 * transfer_count s * current_index s /\
  forall a, 0 <= claimable s a <= total_claimable s.
Proof. intros Hc Hr. split; [exact (solvency_bound c s Hc Hr)|]. intros a. exact (claim_in_total c s a Hc Hr). Qed.
Print Assumptions C11_bound_partial.
(** After an index update the claims are covered exactly: 150000 of 150000; in the state above
    they are short by 2 after 21 transfers. *)
Example C11_bound_ex : reachable cfg0 st2 /\ total_claimable st2 = 150000 /\ bal st2 YieldA = 150000 /\ transfer_count st2 = 3 /\
  transfer_count (run cfg0 init0 short_ops) = 21.
Proof. split; [apply reach2|]. vm_compute. repeat split; reflexivity. Qed.

(** * C44 Index updates cannot be blocked, part three *)
(** What holds without assumptions on the books, on chains that refuse deliveries to
    the yield account: an increase of the index is applied if it gains the users
    more than two units of principal per transfer ever made. The stated inequality
    is about the users' own principal, so that yield claimed for vaults, channels and warp
    accounts during the update is paid from what is minted. Missing: smaller increases. *)
Theorem C44_large_partial c s x bz index : chain_ok c -> c_blocked c YieldA = true -> reachable c s -> p_paused (st_portal s) = false ->
  index_message c s bz index -> claims_unblocked c -> routes_usable c s -> update_in_range c s ->
  (v_ended (st_vaults s) = true -> bystander (v_collector (st_vaults s))) ->
  (2 * transfer_count s + 1) * index <= user_principal s * (index - current_index s) ->
  exists s', exec c (OpDeliver x bz) s = Ok s' tt /\ current_index s' = index.
Proof. exact (index_large c s x bz index). Qed.
Print Assumptions C44_large_partial.

(** The chain used elsewhere, also refusing deliveries to the yield account. *)
Definition cfgy : config := {|
  c_denom := "uusdn"; c_authority := authority; c_min_lock := 100; c_min_unlock := 50;
  c_dec := dec0; c_enc := enc0; c_raw := raw0; c_acct := acct0;
  c_blocked := fun a => bool_decide (a = ModuleA \/ a = YieldA);
  c_chain := 4009; c_vaa := vaa0; c_hex := hex0; c_keccak := fun bs => bs |}.
Lemma chainy_ok : chain_ok cfgy.
Proof. constructor; [constructor; apply codec0_ok|done|done|done|done|done]. Qed.
Definition sty : state := run cfgy init0 ops5.
Lemma reachy : reachable cfgy sty.
Proof. exists init0, ops5. split; [|done]. constructor; done. Qed.
(** An increase by two parts in a thousand. *)
Definition iy : Z := 1002000000000.
Example C44_large_ex : reachable cfgy sty /\ p_paused (st_portal sty) = false /\ index_message cfgy sty (index_vaa 31 iy) iy /\
  claims_unblocked cfgy /\ routes_usable cfgy sty /\ update_in_range cfgy sty /\ v_ended (st_vaults sty) = false /\
  (2 * transfer_count sty + 1) * iy <= user_principal sty * (iy - current_index sty) /\
  transfer_count sty = 5 /\ user_principal sty = 1150000 /\ current_index (step cfgy sty (reindex 31 iy)) = iy.
Proof.
  split; [apply reachy|]. split; [vm_compute; reflexivity|]. split; [apply (message0_ok sty); vm_compute; reflexivity|].
  split; [repeat split; try reflexivity|].
  split; [apply (routes0 sty); apply (bool_decide_unpack _); vm_compute; exact I|].
  split; [constructor|].
  - vm_compute. done.
  - intros a. apply (map_bound _ (fun z => Z.abs z < 2 ^ 150)); [|done]. apply (bool_decide_unpack _). vm_compute. exact I.
  - vm_compute. done.
  - intros k. apply (map_bound _ (fun z => z < 2 ^ 180)); [|done]. apply (bool_decide_unpack _). vm_compute. exact I.
  - intros k. apply (map_bound _ (fun z => Z.abs z < 2 ^ 250)); [|done]. apply (bool_decide_unpack _). vm_compute. exact I.
  - vm_compute. done.
  - split; [reflexivity|]. split; [vm_compute; intros [=]|]. vm_compute. repeat split; reflexivity.
Qed.
