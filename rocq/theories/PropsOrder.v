(** C68: when the order of messages matters. *)
From Verif Require Import Spec Concrete OrderP UnlockOrderP PropsVaults.

(** Claims of different accounts: if they all succeed in one order they do in every
    other, and the state after them is the same. *)
Theorem C68_claims : forall c s s' l l', chain_ok c -> reachable c s -> NoDup (c_dec c <$> l) -> l ≡ₚ l' ->
  executes c s (OpClaimYield <$> l) s' -> executes c s (OpClaimYield <$> l') s'.
Proof. intros c s s' l l' Hc Hr Hn HP. exact (claims_order c l l' Hc HP s s' Hr Hn). Qed.
Print Assumptions C68_claims.
(** Transfers in any order, with claims of accounts that take no part in the transfers
    anywhere among them: as long as all succeed, everything but the number of holders
    is the same. *)
Theorem C68_transfers : forall c s s1 s2 l l', chain_ok c -> reachable c s -> Forall is_simple l -> apart c l -> l ≡ₚ l' ->
  executes c s l s1 -> executes c s l' s2 -> without_holders s1 = without_holders s2.
Proof. intros c s s1 s2 l l'. exact (simple_order c l l' s s1 s2). Qed.
Print Assumptions C68_transfers.
(** Locks, of the same or different users in either vault, in any two orders in which all
    succeed. *)
Theorem C68_locks : forall c s s1 s2 l l', chain_ok c -> reachable c s -> l ≡ₚ l' ->
  executes c s (lock_op <$> l) s1 -> executes c s (lock_op <$> l') s2 ->
  (forall a, bal s1 a = bal s2 a) /\ (forall a, prin s1 a = prin s2 a) /\ positions s1 = positions s2 /\
  (forall w, a_vault w -> vault_total s1 w = vault_total s2 w /\ vault_users s1 w = vault_users s2 w) /\
  v_total_flex (st_vaults s1) = v_total_flex (st_vaults s2) /\
  supply s1 = supply s2 /\ total_principal s1 = total_principal s2 /\ current_index s1 = current_index s2 /\ rewards s1 = rewards s2 /\
  distributed s1 = distributed s2 /\ st_portal s1 = st_portal s2 /\ st_world s1 = st_world s2.
Proof. exact locks_order. Qed.
Print Assumptions C68_locks.
(** Staked unlocks of different users in any two orders in which all succeed. *)
Theorem C68_unlocks : forall c s s1 s2 l l', chain_ok c -> reachable c s -> NoDup ((fun e => c_dec c e.1) <$> l) -> l ≡ₚ l' ->
  executes c s (unlock_op <$> l) s1 -> executes c s (unlock_op <$> l') s2 ->
  (forall a, bal s1 a = bal s2 a) /\ (forall a, prin s1 a = prin s2 a) /\ positions s1 = positions s2 /\
  (forall w, a_vault w -> vault_total s1 w = vault_total s2 w /\ vault_users s1 w = vault_users s2 w) /\
  v_total_flex (st_vaults s1) = v_total_flex (st_vaults s2) /\
  supply s1 = supply s2 /\ total_principal s1 = total_principal s2 /\ current_index s1 = current_index s2 /\ rewards s1 = rewards s2 /\
  distributed s1 = distributed s2 /\ st_portal s1 = st_portal s2 /\ st_world s1 = st_world s2.
Proof. exact unlocks_order. Qed.
Print Assumptions C68_unlocks.
(** What an unlock leaves of a user's positions in the vault depends on nothing but these
    positions and the amount. *)
Theorem C28_determined : forall c s t s' t' g v x a, chain_ok c -> reachable c s -> reachable c t -> c_dec c g = Some a ->
  (forall u, positions s !! (a, v, u) = positions t !! (a, v, u)) ->
  exec c (OpUnlock g v x) s = Ok s' tt -> exec c (OpUnlock g v x) t = Ok t' tt ->
  forall u, positions s' !! (a, v, u) = positions t' !! (a, v, u).
Proof. exact unlock_determined. Qed.
Print Assumptions C28_determined.
(** An index that never arrives is made up for by the next one: supply, statistics and
    every user are where they would have been. *)
Theorem C68_skipped_index : forall c s s1 s2 s3 x1 x2 x3 bz1 bz2 bz3 i1 i2, chain_ok c -> reachable c s ->
  (v_ended (st_vaults s) = true -> bystander (v_collector (st_vaults s))) ->
  carried_index c bz1 = Some i1 -> carried_index c bz2 = Some i2 -> carried_index c bz3 = Some i2 ->
  exec c (OpDeliver x1 bz1) s = Ok s1 tt -> exec c (OpDeliver x2 bz2) s1 = Ok s2 tt -> exec c (OpDeliver x3 bz3) s = Ok s3 tt ->
  current_index s2 = current_index s3 /\ supply s2 = supply s3 /\ total_principal s2 = total_principal s3 /\
  ds_yield (d_stats (st_dollar s2)) = ds_yield (d_stats (st_dollar s3)) /\
  forall b, (v_ended (st_vaults s) = true -> v_collector (st_vaults s) <> AUser b) ->
    bal s2 (AUser b) = bal s3 (AUser b) /\ prin s2 (AUser b) = prin s3 (AUser b) /\ claimable s2 (AUser b) = claimable s3 (AUser b).
Proof. exact index_skip. Qed.
Print Assumptions C68_skipped_index.
(** Claiming before and after an index update pays as much as claiming only after it,
    or one unit less. *)
Theorem C68_claim_timing : forall c g b s s1 s2 s3 t1 t2 x1 x2 bz1 bz2 i, chain_ok c -> reachable c s -> c_dec c g = Some (AUser b) ->
  (v_ended (st_vaults s) = true -> bystander (v_collector (st_vaults s)) /\ v_collector (st_vaults s) <> AUser b) ->
  carried_index c bz1 = Some i -> carried_index c bz2 = Some i ->
  exec c (OpClaimYield g) s = Ok s1 tt -> exec c (OpDeliver x1 bz1) s1 = Ok s2 tt -> exec c (OpClaimYield g) s2 = Ok s3 tt ->
  exec c (OpDeliver x2 bz2) s = Ok t1 tt -> exec c (OpClaimYield g) t1 = Ok t2 tt ->
  bal s3 (AUser b) <= bal t2 (AUser b) <= bal s3 (AUser b) + 1.
Proof. exact claim_timing. Qed.
Print Assumptions C68_claim_timing.

Fixpoint succeed (s : state) (l : list op) : option state :=
  match l with [] => Some s | o :: l => match exec cfg0 o s with Ok s1 _ => succeed s1 l | _ => None end end.
Lemma succeed_executes l : forall s s', succeed s l = Some s' -> executes cfg0 s l s'.
Proof.
  induction l as [|o l IH]; intros s s'; cbn [succeed executes]; [by intros [= ->]|].
  destruct (exec cfg0 o s) as [s1 []| |]; try discriminate. eauto.
Qed.
Definition shows {A} (s : state) (l : list op) (f : state -> A) : option A := f <$> succeed s l.
Lemma shows_executes {A} s l (f : state -> A) x : shows s l f = Some x -> exists s', executes cfg0 s l s' /\ f s' = x.
Proof. unfold shows. destruct (succeed s l) eqn:E; [|discriminate]. intros [= <-]. eauto using succeed_executes. Qed.

(** alice has 100000 to claim, bob 50000. *)
Example C68_claims_ex : reachable cfg0 st2 /\ NoDup (c_dec cfg0 <$> [alice0; bob0]) /\ [alice0; bob0] ≡ₚ [bob0; alice0] /\
  exists s', executes cfg0 st2 (OpClaimYield <$> [alice0; bob0]) s' /\ (bal s' alice, bal s' bob, bal s' YieldA) = (1100000, 550000, 0).
Proof.
  split; [apply reach2|]. split; [refine (bool_decide_unpack _ _); vm_compute; exact I|]. split; [constructor|].
  apply shows_executes. vm_compute. reflexivity.
Qed.
(** bob and carol pass dollars on while alice claims. *)
Definition shuffle1 : list op := [OpSend bob carol 300; OpClaimYield alice0; OpSend carol bob 100].
Definition shuffle2 : list op := [OpClaimYield alice0; OpSend bob carol 300; OpSend carol bob 100].
Example C68_transfers_ex : reachable cfg0 st2 /\ Forall is_simple shuffle1 /\ apart cfg0 shuffle1 /\ shuffle1 ≡ₚ shuffle2 /\
  (exists s', executes cfg0 st2 shuffle1 s' /\ (bal s' alice, bal s' bob, bal s' carol) = (1100000, 499800, 200)) /\
  (exists s', executes cfg0 st2 shuffle2 s' /\ (bal s' alice, bal s' bob, bal s' carol) = (1100000, 499800, 200)).
Proof.
  split; [apply reach2|]. split; [by repeat constructor|]. split; [|split; [constructor|split; apply shows_executes; vm_compute; reflexivity]].
  intros g l0 o a HP Ho Ha.
  assert (Hg : OpClaimYield g ∈ shuffle1) by (rewrite HP; apply elem_of_cons; by left).
  unfold shuffle1 in Hg. rewrite !elem_of_cons, elem_of_nil in Hg. destruct Hg as [|[Hg|[|[]]]]; try discriminate. injection Hg as ->.
  assert (HP' : [OpSend bob carol 300; OpSend carol bob 100] ≡ₚ l0).
  { apply (Permutation_cons_inv (a := OpClaimYield alice0)). rewrite <- HP. unfold shuffle1. constructor. }
  rewrite <- HP' in Ho. rewrite !elem_of_cons, elem_of_nil in Ho.
  destruct Ho as [->|[->|[]]]; cbn in Ha; rewrite !elem_of_cons, elem_of_nil in Ha; destruct Ha as [->|[->|[]]];
    vm_compute; discriminate.
Qed.
(** The number of holders does depend on the order. alice and dave sent everything to bob and
    then claimed, which the statistic does not count (Finding 4): it says one holder,
    there are three. Whether bob's payment to a new account comes before or after the two empty
    their accounts makes the difference between none and one. *)
Definition dave : addr := user 4.
Definition ops_drift : list op :=
  setup ++ [issue 1 alice 1000000 e12; issue 2 bob 500000 e12; issue 3 dave 1000000 e12; reindex 4 1100000000000;
            OpSend alice bob 1000000; OpSend dave bob 1000000; OpClaimYield alice0; OpClaimYield (enc0 dave)].
Definition drift : state := run cfg0 init0 ops_drift.
Definition empty_first : list op := [OpSend alice bob (bal drift alice); OpSend dave bob (bal drift dave); OpSend bob carol 10].
Definition empty_last : list op := [OpSend bob carol 10; OpSend alice bob (bal drift alice); OpSend dave bob (bal drift dave)].
Theorem C68_holders_order : exists s l l' s1 s2, chain_ok cfg0 /\ reachable cfg0 s /\ Forall is_simple l /\ l ≡ₚ l' /\
  executes cfg0 s l s1 /\ executes cfg0 s l' s2 /\
  ds_holders (d_stats (st_dollar s1)) = 1 /\ ds_holders (d_stats (st_dollar s2)) = 0 /\ holder_count s1 = 2 /\ holder_count s2 = 2.
Proof.
  assert (H1 : exists s', executes cfg0 drift empty_first s' /\ (ds_holders (d_stats (st_dollar s')), holder_count s') = (1, 2)).
  { apply shows_executes. vm_compute. reflexivity. }
  assert (H2 : exists s', executes cfg0 drift empty_last s' /\ (ds_holders (d_stats (st_dollar s')), holder_count s') = (0, 2)).
  { apply shows_executes. vm_compute. reflexivity. }
  destruct H1 as (s1 & E1 & X1), H2 as (s2 & E2 & X2). injection X1 as X1 Y1. injection X2 as X2 Y2.
  exists drift, empty_first, empty_last, s1, s2. split; [apply chain0_ok|]. split; [exact (reach0 ops_drift)|].
  split; [by repeat constructor|]. split; [|auto 10].
  unfold empty_first, empty_last. symmetry. apply (Permutation_cons_append [_; _]).
Qed.
Print Assumptions C68_holders_order.
(** 1.1 and then 1.2, or 1.2 at once. *)
Example C68_skipped_index_ex : reachable cfg0 st1 /\ v_ended (st_vaults st1) = false /\
  carried_index cfg0 (index_vaa 3 1100000000000) = Some 1100000000000 /\ carried_index cfg0 (index_vaa 4 1200000000000) = Some 1200000000000 /\
  shows st1 [reindex 3 1100000000000; reindex 4 1200000000000] (fun s => (supply s, claimable s alice)) = Some (1800000, 200000) /\
  shows st1 [reindex 4 1200000000000] (fun s => (supply s, claimable s alice)) = Some (1800000, 200000).
Proof. split; [exact (reach0 ops1)|]. vm_compute. repeat split; reflexivity. Qed.
(** With the index raised by one unit after a claim, the unit is only paid to the one who waits. *)
Example C68_claim_timing_ex : reachable cfg0 st2 /\ c_dec cfg0 alice0 = Some alice /\ v_ended (st_vaults st2) = false /\
  shows st2 [OpClaimYield alice0; reindex 9 1100001000000; OpClaimYield alice0] (fun s => bal s alice) = Some 1100000 /\
  shows st2 [reindex 9 1100001000000; OpClaimYield alice0] (fun s => bal s alice) = Some 1100001.
Proof. split; [apply reach2|]. vm_compute. repeat split; reflexivity. Qed.
(** alice locks in both vaults, bob in one. *)
Definition locks0 : list (string * Z * Z) := [(alice0, STAKED, 300); (bob0, STAKED, 500); (alice0, FLEXIBLE, 200)].
Example C68_locks_ex : reachable cfg0 st2 /\ locks0 ≡ₚ reverse locks0 /\
  (exists s', executes cfg0 st2 (lock_op <$> locks0) s' /\ (bal s' alice, size (positions s'), vault_users s' STAKED, vault_total s' STAKED) = (999500, 3%nat, 2, 726)) /\
  (exists s', executes cfg0 st2 (lock_op <$> reverse locks0) s' /\ (bal s' alice, size (positions s'), vault_users s' STAKED, vault_total s' STAKED) = (999500, 3%nat, 2, 726)).
Proof. split; [apply reach2|]. split; [symmetry; apply reverse_Permutation|]. split; apply shows_executes; vm_compute; reflexivity. Qed.
(** bob takes everything, alice 350 of two positions. *)
Definition unlocks0 : list (string * Z) := [(alice0, 350); (bob0, 500)].
Example C68_unlocks_ex : reachable cfg0 st3 /\ NoDup ((fun e => c_dec cfg0 e.1) <$> unlocks0) /\ unlocks0 ≡ₚ reverse unlocks0 /\
  (exists s', executes cfg0 st3 (unlock_op <$> unlocks0) s' /\
    (bal s' alice - bal st3 alice, bal s' bob - bal st3 bob, size (positions s'), vault_users s' STAKED, amount_at s' (alice, STAKED, 1010)) = (350, 500, 3%nat, 1, 60)) /\
  (exists s', executes cfg0 st3 (unlock_op <$> reverse unlocks0) s' /\
    (bal s' alice - bal st3 alice, bal s' bob - bal st3 bob, size (positions s'), vault_users s' STAKED, amount_at s' (alice, STAKED, 1010)) = (350, 500, 3%nat, 1, 60)).
Proof.
  split; [apply reach3|]. split; [refine (bool_decide_unpack _ _); vm_compute; exact I|]. split; [symmetry; apply reverse_Permutation|].
  split; apply shows_executes; vm_compute; reflexivity.
Qed.
(** Before and after bob's withdrawal and a rise of the index. *)
Example C28_determined_ex : reachable cfg0 st3 /\ c_dec cfg0 alice0 = Some alice /\
  shows st3 [OpUnlock alice0 STAKED (Some 350)] (fun s => (amount_at s (alice, STAKED, 1000), amount_at s (alice, STAKED, 1010))) = Some (0, 60) /\
  shows st3 [OpUnlock bob0 STAKED (Some 500); reindex 9 1200000000000; OpUnlock alice0 STAKED (Some 350)]
    (fun s => (amount_at s (alice, STAKED, 1000), amount_at s (alice, STAKED, 1010))) = Some (0, 60).
Proof. split; [apply reach3|]. vm_compute. repeat split; reflexivity. Qed.
