(** Genesis export and import, the default genesis, the migration: C42, C43, C47. *)
From Verif Require Import Spec Concrete GenesisP PropsVaults PropsRewards PropsExt.

(** * C42 Genesis export and import round-trips *)
(** False as stated: [ExportGenesis] keeps only the bridging paths that are
    supported, so a path switched off is absent after an import and "switched off"
    is forgotten; and [SetYieldRecipient] accepts provider numbers it does not
    know, whose exported names are read back as IBC. *)
Theorem C42_roundtrip_refuted :
  (exists c s b w, chain_ok c /\ reachable c s /\ match init_genesis c (export_genesis c s) (blank b w) with
     | Ok s' _ => p_paths (st_portal s) !! (2, eth_token) = Some false /\ p_paths (st_portal s') !! (2, eth_token) = None
     | _ => False end) /\
  (exists c s b w, chain_ok c /\ reachable c s /\ match init_genesis c (export_genesis c s) (blank b w) with
     | Ok s' _ => d_recipients (st_dollar s) !! (IBC, "x"%string) = None /\ d_recipients (st_dollar s') !! (IBC, "x"%string) = Some "y"%string
     | _ => False end).
Proof.
  split.
  - exists cfg0, (run cfg0 init0 (ops1 ++ [OpSetBridgingPath owner0 2 eth_token false])), (mk_bank ∅ 0 0), (st_world init0).
    split; [apply chain0_ok|]. split; [apply reach0|]. vm_compute. auto.
  - exists cfg0, (run cfg0 init0 [OpSetYieldRecipient authority 5 "x" "y"]), (mk_bank ∅ 0 0), (st_world init0).
    split; [apply chain0_ok|]. split; [apply reach0|]. vm_compute. auto.
Qed.
Print Assumptions C42_roundtrip_refuted.

(** What holds in every reachable state whose recipient keys are printable
    (provider IBC or Hyperlane, no slash in the identifier): everything except
    disabled bridging paths comes back. [g] is the exported genesis in any order,
    since it is written from Go maps. Missing: states with other keys. *)
Theorem C42_roundtrip_partial c s g : chain_ok c -> reachable c s -> tidy_keys s -> same_genesis g (export_genesis c s) ->
  forall b w, exists s', init_genesis c g (blank b w) = Ok s' tt /\
    st_dollar s' = st_dollar s /\ st_vaults s' = st_vaults s /\ st_bank s' = b /\ st_world s' = w /\
    p_owner (st_portal s') = p_owner (st_portal s) /\ p_paused (st_portal s') = p_paused (st_portal s) /\
    p_peers (st_portal s') = p_peers (st_portal s) /\ p_nonce (st_portal s') = p_nonce (st_portal s) /\
    forall k, p_paths (st_portal s') !! k = Some true <-> p_paths (st_portal s) !! k = Some true.
Proof. exact (genesis_roundtrip c s g). Qed.
Print Assumptions C42_roundtrip_partial.

(** Exact round trip after every history of messages that name known providers and
    slash-free identifiers and never switch a path off. *)
Theorem C42_exact_partial c s0 l g : chain_ok c -> fresh c s0 -> (forall k, is_Some (d_recipients (st_dollar s0) !! k) -> tidy_key k) ->
  Forall tidy_op l -> let s := run c s0 l in same_genesis g (export_genesis c s) ->
  forall b w, init_genesis c g (blank b w) = Ok (mk_state b (st_dollar s) (st_portal s) (st_vaults s) w) tt.
Proof. exact (genesis_exact c s0 l g). Qed.
Print Assumptions C42_exact_partial.

(** A state with recipients, retries, external yield, a peer and a path, and a
    state with locked positions and a reward. *)
Definition st6 : state := after st5 (OpDeliver nohyp (index_vaa 31 1100000000000)).
Example C42_ex : Forall tidy_op ops5 /\ Forall tidy_op ops4 /\
  length (g_recipients (export_genesis cfg0 st6)) = 3%nat /\ length (g_retry (export_genesis cfg0 st6)) = 1%nat /\
  length (g_paths (export_genesis cfg0 st6)) = 1%nat /\
  length (g_positions (export_genesis cfg0 st3)) = 5%nat /\ length (g_rewards (export_genesis cfg0 st4)) = 3%nat /\
  match init_genesis cfg0 (export_genesis cfg0 st6) (blank (mk_bank ∅ 0 0) (st_world init0)) with
  | Ok s' _ => map_to_list (d_retry (st_dollar s')) = map_to_list (d_retry (st_dollar st6))
  | _ => False
  end.
Proof.
  split; [|split; [|vm_compute; auto 10]]; repeat (apply Forall_cons; split; [|]); try apply Forall_nil;
    try exact I; try reflexivity; unfold tidy_op, tidy_key, no_slash; apply (bool_decide_unpack _); vm_compute; exact I.
Qed.

(** * C43 The default genesis can be initialised *)
(** False: the default genesis has an empty season two yield collector, whose
    decoding panics with every codec that rejects the empty string. *)
Theorem C43_default_refuted c s : c_dec c "" = None -> init_genesis c default_genesis s = Panic.
Proof. exact (default_panics c s). Qed.
Print Assumptions C43_default_refuted.
(** With a collector filled in it initialises, and to a state from which the
    theorems about reachable states start. *)
Theorem C43_collector_partial c a w : codec_ok c -> exists s, init_genesis c (default_with (c_enc c a)) (blank (mk_bank ∅ 0 0) w) = Ok s tt /\
  st_world s = w /\ st_bank s = mk_bank ∅ 0 0 /\
  st_dollar s = mk_dollar false (10 ^ 12) ∅ (mk_dstats 0 0 0) ∅ ∅ ∅ /\
  st_portal s = mk_portal "" false ∅ ∅ 0 /\
  st_vaults s = mk_vaults 0 false a ∅ 0 ∅ (mk_vstats 0 0 0 0 0) /\
  (a <> ModuleA -> a <> YieldA -> x_posted w = [] -> x_inflight w = [] -> x_acked w = [] -> x_tokens w = ∅ -> x_dispatched w = [] -> fresh c s).
Proof. exact (default_collector c a w). Qed.
Print Assumptions C43_collector_partial.
Example C43_ex : c_dec cfg0 "" = None /\ codec_ok cfg0 /\ init_genesis cfg0 default_genesis init0 = Panic /\
  match init_genesis cfg0 (default_with (c_enc cfg0 alice)) (blank (mk_bank ∅ 0 0) (st_world init0)) with
  | Ok s _ => v_collector (st_vaults s) = alice
  | _ => False
  end.
Proof. split; [done|]. split; [apply codec0_ok|]. vm_compute. auto. Qed.

(** * C47 The in-place migration preserves the statistics *)
Theorem C47_migration s t : match migrate1to2 (Some t) s with
  | Ok s' _ => ds_holders (d_stats (st_dollar s')) = s1_holders t /\ ds_principal (d_stats (st_dollar s')) = s1_principal t /\
      ds_yield (d_stats (st_dollar s')) = s1_yield t /\
      st_bank s' = st_bank s /\ st_portal s' = st_portal s /\ st_vaults s' = st_vaults s /\ st_world s' = st_world s /\
      d_paused (st_dollar s') = d_paused (st_dollar s) /\ d_recipients (st_dollar s') = d_recipients (st_dollar s) /\ d_principal (st_dollar s') = d_principal (st_dollar s) /\ 
      d_index (st_dollar s') = d_index (st_dollar s) /\ d_ext_yield (st_dollar s') = d_ext_yield (st_dollar s) /\ d_retry (st_dollar s') = d_retry (st_dollar s)
  | _ => False
  end.
Proof. exact (migration_keeps s t). Qed.
Print Assumptions C47_migration.
(** A chain without version 1 statistics cannot migrate. *)
Theorem C47_missing s : migrate1to2 None s = Err s ENotFound.
Proof. done. Qed.
Print Assumptions C47_missing.
Example C47_migration_ex : match migrate1to2 (Some (mk_stats_v1 3 700 9)) st5 with
  | Ok s _ => d_stats (st_dollar s) = mk_dstats 3 700 9 /\ d_stats (st_dollar st5) <> mk_dstats 3 700 9
  | _ => False
  end.
Proof. vm_compute. split; [done|discriminate]. Qed.
