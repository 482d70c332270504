(** C65: an upgrade ends season one while positions exist. *)
From Verif Require Import Spec Concrete PropsVaults PropsRewards UpgradeP.

(** * C65 *)
Theorem C65_frozen : forall c s s' a l, chain_ok c -> reachable c s -> succeeds_with c s (OpEndSeason a) s' ->
  frozen c s (run c s' l) /\
  (forall g x, rejected c (run c s' l) (OpUnlock g FLEXIBLE x) /\ rejected c (run c s' l) (OpLock g FLEXIBLE x)).
Proof. exact frozen_upgrade. Qed.
Print Assumptions C65_frozen.
(** The upgrade moves no money and touches no stake. *)
Theorem C65_nothing_else : forall c s s' a p, chain_ok c -> reachable c s -> succeeds_with c s (OpEndSeason a) s' ->
  p <> PSeasonEnded -> p <> PCollector -> unchanged p s s'.
Proof. exact upgrade_only. Qed.
Print Assumptions C65_nothing_else.
(** alice and bob have positions in both vaults when carol becomes the collector. The
    next update pays the yield of the staked vault to carol; alice gets her staked 410
    back, and of her 1200 in the flexible vault nothing. *)
Definition upgraded : state := after st4 (OpEndSeason carol).
Definition upgraded_later : state := run cfg0 upgraded [reindex 31 1900000000000; OpUnlock alice0 STAKED (Some 410); OpUnlock alice0 FLEXIBLE (Some 1200)].
Example C65_frozen_ex : reachable cfg0 st4 /\ succeeds cfg0 st4 (OpEndSeason carol) = true /\
  succeeds cfg0 st4 (OpUnlock alice0 FLEXIBLE (Some 1200)) = true /\
  stake upgraded alice FLEXIBLE = 1200 /\ stake upgraded_later alice FLEXIBLE = 1200 /\
  stake upgraded alice STAKED = 410 /\ stake upgraded_later alice STAKED = 0 /\
  bal upgraded_later alice = bal upgraded alice + 410 /\ bal upgraded carol < bal upgraded_later carol /\
  bal upgraded_later (vault_account cfg0 FLEXIBLE alice 1010) = 1000 /\
  succeeds cfg0 st4 (OpEndSeason YieldA) = false.
Proof. split; [exact reach4|]. vm_compute. repeat split; reflexivity. Qed.
