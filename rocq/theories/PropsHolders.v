(** The holders statistic: C12. *)
From Verif Require Import Spec Concrete HoldersP PropsLive.

(** * C12 The total-holders statistic counts the accounts with a non-zero balance *)
(** alice sends everything to bob before claiming the yield of the last update; then alice claims. *)
Definition late_claim : list op := ops1 ++ [reindex 3 i11; OpSend alice bob 1000000; OpClaimYield (c_enc cfg0 alice)].
(** alice stakes; nobody uses the flexible vault; the index rises. *)
Definition lone_stake : list op := ops1 ++ [OpLock (c_enc cfg0 alice) STAKED (Some 100000); reindex 3 i11].
(** alice spends everything on a multi-send to three accounts. *)
Definition split_all : list op := ops1 ++ [OpMultiSend alice [(bob, 600000); (carol, 300000); (StakedA, 100000)]].
(** False: yield paid to an account without balance is not counted, and a sender who spends
    everything on several outputs is deducted once for each. After the first history
    alice and bob hold USDN and the statistic is 1; after the second the statistic
    misses the account of the flexible vault; after the third three accounts hold USDN and
    the statistic is 1. *)
Theorem C12_holders_refuted :
  (exists s, chain_ok cfg0 /\ reachable cfg0 s /\ bal s alice = 99999 /\ bal s bob = 1500000 /\
     ds_holders (d_stats (st_dollar s)) = 1 /\ holder_count s = 2) /\
  (exists s, chain_ok cfg0 /\ reachable cfg0 s /\ ds_holders (d_stats (st_dollar s)) = 3 /\ holder_count s = 4 /\
     bal s alice = 900000 /\ bal s bob = 500000 /\ bal s StakedA = 100000 /\ bal s FlexibleA = 10000) /\
  (exists s, chain_ok cfg0 /\ reachable cfg0 s /\ ds_holders (d_stats (st_dollar s)) = 1 /\ holder_count s = 3 /\
     bal s alice = 0 /\ bal s bob = 1100000 /\ bal s carol = 300000 /\ bal s StakedA = 100000).
Proof.
  split; [exists (run cfg0 init0 late_claim)|split; [exists (run cfg0 init0 lone_stake)|exists (run cfg0 init0 split_all)]]; (split; [apply chain0_ok|]); (split; [apply reach0|]);
    vm_compute; repeat split; reflexivity.
Qed.
Print Assumptions C12_holders_refuted.

(** What holds in every reachable state: the statistic never counts too many. *)
Theorem C12_upper_partial c s : chain_ok c -> reachable c s ->
  0 <= ds_holders (d_stats (st_dollar s)) <= holder_count s /\ holder_count s <= transfer_count s.
Proof. exact (holders_upper c s). Qed.
Print Assumptions C12_upper_partial.
Example C12_upper_ex : reachable cfg0 st2 /\ ds_holders (d_stats (st_dollar st2)) = 2 /\ holder_count st2 = 2 /\ transfer_count st2 = 3.
Proof. split; [apply reach2|]. vm_compute. repeat split; reflexivity. Qed.

(** It misses at most the yield payments that accounts without balance received: by their own
    claim, or as the account of a vault, a channel or a hyperlane token in an update; and one
    account for each further output of a multi-send that spends the sender's balance. (In
    season two the staked vault must not keep principal without balance.) *)
Theorem C12_drift_partial c s0 ops : chain_ok c -> fresh c s0 ->
  Forall (fun s => v_ended (st_vaults s) = true -> bal s StakedA = 0 -> prin s StakedA <= 0) (history c s0 ops) ->
  transfer_count (run c s0 ops) < 2 ^ 64 ->
  holder_count (run c s0 ops) - count_ops (uncounted c) c s0 ops <= ds_holders (d_stats (st_dollar (run c s0 ops))) <= holder_count (run c s0 ops).
Proof. exact (holders_drift c s0 ops). Qed.
Print Assumptions C12_drift_partial.
(** The first two histories above have one such payment, the third two further outputs. *)
Example C12_drift_ex : fresh cfg0 init0 /\
  forallb (fun s => negb (v_ended (st_vaults s))) (history cfg0 init0 late_claim ++ history cfg0 init0 lone_stake ++ history cfg0 init0 split_all) = true /\
  count_ops (uncounted cfg0) cfg0 init0 late_claim = 1 /\ transfer_count (run cfg0 init0 late_claim) = 5 /\
  count_ops (uncounted cfg0) cfg0 init0 lone_stake = 1 /\ transfer_count (run cfg0 init0 lone_stake) = 5 /\
  count_ops (uncounted cfg0) cfg0 init0 split_all = 2 /\ transfer_count (run cfg0 init0 split_all) = 5.
Proof. split; [apply init0_fresh|]. vm_compute. repeat split; reflexivity. Qed.

(** It is exact after every history in which no state leaves principal on an account
    without balance (and, in season one, stakes without a flexible vault to receive
    their yield) and no multi-send spends the sender's balance on several outputs, with
    fewer than 2^64 transfers. Missing: the histories refuted above. *)
Theorem C12_exact_partial c s0 ops : chain_ok c -> fresh c s0 -> Forall orderly (history c s0 ops) -> count_ops spread c s0 ops = 0 -> transfer_count (run c s0 ops) < 2 ^ 64 ->
  ds_holders (d_stats (st_dollar (run c s0 ops))) = holder_count (run c s0 ops).
Proof. exact (holders_exact c s0 ops). Qed.
Print Assumptions C12_exact_partial.

Definition orderly0 (s : state) : bool :=
  bool_decide (map_Forall (fun a z => a = ModuleA \/ a = YieldA \/ bal s a <> 0 \/ z <= 0) (d_principal (st_dollar s))) &&
  (v_ended (st_vaults s) || negb (bal s FlexibleA =? 0) || (bal s StakedA =? 0)).
Lemma orderly0_ok s : orderly0 s = true -> orderly s.
Proof.
  unfold orderly0. rewrite andb_true_iff, bool_decide_eq_true, !orb_true_iff, negb_true_iff, Z.eqb_neq, Z.eqb_eq.
  intros [H1 H2]. split; [|destruct H2 as [[?|?]|?]; auto]. intros a [A1 A2] Hb. unfold prin.
  destruct (d_principal (st_dollar s) !! a) as [z|] eqn:E; [|done]. specialize (H1 _ _ E). cbn in *. destruct H1 as [?|[?|[?|?]]]; done.
Qed.
(** Locks in both vaults, an update, claims, an account emptied after its claim, another update, unlocks. *)
Definition orderly_ops : list op := ops1 ++
  [OpLock (c_enc cfg0 bob) FLEXIBLE (Some 200000); OpSend bob (FlexibleA) 1000; OpLock (c_enc cfg0 alice) STAKED (Some 100000); reindex 3 i11; OpClaimYield (c_enc cfg0 alice);
   OpClaimYield (c_enc cfg0 bob); OpSend alice carol 890000; OpSend alice carol 100000; reindex 4 1200000000000; OpTime 5;
   OpUnlock (c_enc cfg0 alice) STAKED (Some 100000); OpUnlock (c_enc cfg0 bob) FLEXIBLE (Some 100000);
   OpMultiSend bob [(alice, 100); (carol, 100); (user 77, 100)]].
Example C12_exact_ex : fresh cfg0 init0 /\ Forall orderly (history cfg0 init0 orderly_ops) /\ count_ops spread cfg0 init0 orderly_ops = 0 /\
  transfer_count (run cfg0 init0 orderly_ops) = 22 /\ holder_count (run cfg0 init0 orderly_ops) = 6 /\
  length (successful cfg0 init0 orderly_ops) = length orderly_ops.
Proof.
  split; [apply init0_fresh|]. split; [|vm_compute; repeat split; reflexivity].
  apply (Forall_impl (fun s => orderly0 s = true)); [|intros s; apply orderly0_ok].
  apply (bool_decide_unpack _). vm_compute. exact I.
Qed.
