(** C64: the end of season one (endVaultsSeasonOne; nothing calls it at this commit). *)
From Verif Require Import Spec Concrete PropsVaults PropsRewards PropsFlex EndP.

(** * C64 *)
(** The function should return every flexible stake, and change nothing for a user whose
    stake it cannot return. It does not: it swallows the error of a withdrawal but keeps the
    writes made before it. Here the withdrawal of alice's stake of 100 fails (C51); the
    function succeeds, her position stays, and its principal is no longer counted (finding). *)
Definition ended_state (s : state) : state := match end_season_one cfg0 s with Ok s' _ => s' | _ => s end.
Lemma ended_ok s : match end_season_one cfg0 s with Ok _ _ => true | _ => false end = true -> end_season_one cfg0 s = Ok (ended_state s) tt.
Proof. unfold ended_state. destruct (end_season_one cfg0 s) as [? []| |]; done. Qed.
Theorem C64_season_end_refuted : exists s s', chain_ok cfg0 /\ reachable cfg0 s /\ end_season_one cfg0 s = Ok s' tt /\
  v_paused (st_vaults s) = PAUSE_NONE /\ v_ended (st_vaults s) = false /\
  stake s' alice FLEXIBLE = stake s alice FLEXIBLE /\ stake s alice FLEXIBLE = 100 /\ bal s' alice = bal s alice /\
  v_total_flex (st_vaults s) = 33 /\ v_total_flex (st_vaults s') = 0.
Proof.
  exists (run cfg0 init0 lock3_ops), (ended_state (run cfg0 init0 lock3_ops)).
  split; [exact chain0_ok|]. split; [apply reach0|].
  split; [apply ended_ok; vm_compute; reflexivity|]. vm_compute. repeat split; reflexivity.
Qed.
Print Assumptions C64_season_end_refuted.

(** When each staker, in the order of the addresses, could withdraw the whole flexible stake
    by an unlock message, the function has exactly the effect of these messages: no flexible
    position remains and the staked ones are as before. Missing from the full statement:
    states in which a withdrawal fails. *)
Theorem C64_season_end_partial : forall c s us, chain_ok c -> reachable c s ->
  StronglySorted string_le (c_enc c <$> us) -> NoDup us -> (forall a, a ∈ us <-> a ∈ stakers s FLEXIBLE) ->
  let msgs := (fun a => OpUnlock (c_enc c a) FLEXIBLE (Some (stake s a FLEXIBLE))) <$> us in
  (forall l1 o l2, msgs = l1 ++ o :: l2 -> succeeds c (run c s l1) o = true) -> let s' := run c s msgs in
  end_season_one c s = Ok s' tt /\
  (forall a t, positions s' !! (a, FLEXIBLE, t) = None) /\
  (forall a t, positions s' !! (a, STAKED, t) = positions s !! (a, STAKED, t)).
Proof. exact season_end. Qed.
Print Assumptions C64_season_end_partial.
(** alice and bob leave: both stakes are paid with rewards and yield, alice's staked
    positions stay. *)
Example C64_season_end_ex :
  let us := [alice; bob] in
  let msgs := (fun a => OpUnlock (enc0 a) FLEXIBLE (Some (stake st4 a FLEXIBLE))) <$> us in
  reachable cfg0 st4 /\ StronglySorted string_le (enc0 <$> us) /\ stakers st4 FLEXIBLE = {[alice; bob]} /\
  stake st4 alice FLEXIBLE = 1200 /\ stake st4 bob FLEXIBLE = 20000 /\
  succeeds cfg0 st4 (OpUnlock alice0 FLEXIBLE (Some 1200)) = true /\
  succeeds cfg0 (after st4 (OpUnlock alice0 FLEXIBLE (Some 1200))) (OpUnlock bob0 FLEXIBLE (Some 20000)) = true /\
  (let s := run cfg0 st4 msgs in
   bal s alice = bal st4 alice + 1422 /\ stake s alice FLEXIBLE = 0 /\ stake s bob FLEXIBLE = 0 /\ v_total_flex (st_vaults s) = 0 /\
   stake s alice STAKED = stake st4 alice STAKED /\ 0 < stake s alice STAKED).
Proof.
  split; [exact reach4|]. split.
  { assert (H : string_le alice0 bob0) by (vm_compute; reflexivity).
    constructor; [constructor; [constructor|apply List.Forall_nil]|]. apply Forall_cons. split; [exact H|apply List.Forall_nil]. }
  split; [apply (bool_decide_eq_true_1 _); vm_compute; reflexivity|].
  vm_compute. repeat split; reflexivity.
Qed.
