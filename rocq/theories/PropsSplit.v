(** C69: moving an amount in parts. *)
From Verif Require Import Spec Concrete SplitP PropsVaults PropsOrder.

(** A transfer in parts moves the same amount; every part beyond the first moves at most
    one unit of principal more, never less. *)
Theorem C69_transfer : forall c s s1 s2 f t x xs, chain_ok c -> reachable c s -> f <> t ->
  executes c s (OpSend f t <$> x :: xs) s1 -> exec c (OpSend f t (parts_total (x :: xs))) s = Ok s2 tt ->
  (forall a, bal s1 a = bal s2 a) /\ supply s1 = supply s2 /\ total_principal s1 = total_principal s2 /\
  (forall a, a <> f -> a <> t -> prin s1 a = prin s2 a) /\
  exists d, 0 <= d <= Z.of_nat (length xs) /\ prin s1 f = prin s2 f - d /\ prin s1 t = prin s2 t + d.
Proof. exact send_split. Qed.
Print Assumptions C69_transfer.
(** A redemption in parts burns the same amount and costs the user the same units of
    principal more that the total loses. *)
Theorem C69_redeem : forall c s s1 s2 g b l o x xs, chain_ok c -> reachable c s -> c_dec c g = Some (AUser b) ->
  Forall2 (redeems g) l (x :: xs) -> redeems g o (parts_total (x :: xs)) ->
  executes c s l s1 -> exec c o s = Ok s2 tt ->
  (forall a, bal s1 a = bal s2 a) /\ supply s1 = supply s2 /\ (forall a, a <> AUser b -> prin s1 a = prin s2 a) /\
  exists d, 0 <= d <= Z.of_nat (length xs) /\ prin s1 (AUser b) = prin s2 (AUser b) - d /\ total_principal s1 = total_principal s2 - d.
Proof. exact redeem_split. Qed.
Print Assumptions C69_redeem.
(** An issuance in parts credits at most as much principal as one over the whole amount,
    and leaves the total at least as high. *)
Theorem C69_issue : forall c s s1 s2 r l o x xs, chain_ok c -> reachable c s -> r <> YieldA ->
  Forall2 (issues c r (current_index s)) l (x :: xs) -> issues c r (current_index s) o (parts_total (x :: xs)) ->
  executes c s l s1 -> exec c o s = Ok s2 tt ->
  (forall a, bal s1 a = bal s2 a) /\ supply s1 = supply s2 /\ (forall a, a <> r -> prin s1 a = prin s2 a) /\
  prin s2 r - Z.of_nat (length xs) <= prin s1 r <= prin s2 r /\
  total_principal s2 <= total_principal s1 <= total_principal s2 + Z.of_nat (length xs).
Proof. exact issue_split. Qed.
Print Assumptions C69_issue.
(** A withdrawal from a vault in parts leaves the same amount in every position as one over the
    sum, and a staked one pays the same. *)
Theorem C69_unlock : forall c s s1 s2 g v x xs, chain_ok c -> reachable c s ->
  executes c s (unlock_part g v <$> x :: xs) s1 -> exec c (OpUnlock g v (Some (parts_total (x :: xs)))) s = Ok s2 tt ->
  (forall k, amount_at s1 k = amount_at s2 k) /\ (v = STAKED -> forall y, bal s1 y = bal s2 y) /\
  supply s1 = supply s2 /\ current_index s1 = current_index s2 /\ st_portal s1 = st_portal s2 /\ st_world s1 = st_world s2.
Proof. exact unlock_split. Qed.
Print Assumptions C69_unlock.

(** At index 1.1: 100 cost 91 units of principal, 50 cost 46, 1 costs 1. The bounds are reached. *)
Example C69_transfer_ex : reachable cfg0 st2 /\
  (exists s', executes cfg0 st2 (OpSend alice bob <$> [50; 50]) s' /\ (bal s' bob, prin s' alice, prin s' bob) = (500100, 999908, 500092)) /\
  (exists s', executes cfg0 st2 [OpSend alice bob (parts_total [50; 50])] s' /\ (bal s' bob, prin s' alice, prin s' bob) = (500100, 999909, 500091)).
Proof. split; [apply reach2|]. split; apply shows_executes; vm_compute; reflexivity. Qed.
Definition redeem0 (x : Z) : op := OpTransfer true alice0 2 eth_token (replicate 32 Byte.x66) (Some x).
Example C69_redeem_ex : reachable cfg0 st2 /\ Forall2 (redeems alice0) (redeem0 <$> [50; 50]) [50; 50] /\ redeems alice0 (redeem0 100) (parts_total [50; 50]) /\
  (exists s', executes cfg0 st2 (redeem0 <$> [50; 50]) s' /\ (bal s' alice, prin s' alice, total_principal s') = (999900, 999908, 1499908)) /\
  (exists s', executes cfg0 st2 [redeem0 100] s' /\ (bal s' alice, prin s' alice, total_principal s') = (999900, 999909, 1499909)).
Proof.
  split; [apply reach2|]. split; [repeat constructor; by repeat eexists|]. split; [by repeat eexists|].
  split; apply shows_executes; vm_compute; reflexivity.
Qed.
Example C69_issue_ex : reachable cfg0 st2 /\ Forall2 (issues cfg0 alice (current_index st2)) [issue 10 alice 49 e12; issue 11 alice 50 e12] [49; 50] /\
  issues cfg0 alice (current_index st2) (issue 12 alice 99 e12) (parts_total [49; 50]) /\
  (exists s', executes cfg0 st2 [issue 10 alice 49 e12; issue 11 alice 50 e12] s' /\ (bal s' alice, prin s' alice, total_principal s') = (1000099, 1000089, 1500091)) /\
  (exists s', executes cfg0 st2 [issue 12 alice 99 e12] s' /\ (bal s' alice, prin s' alice, total_principal s') = (1000099, 1000090, 1500090)).
Proof.
  split; [apply reach2|]. split; [|split; [|split; apply shows_executes; vm_compute; reflexivity]].
  - constructor; [|constructor; [|constructor]].
    + eexists _, _, _. split; [reflexivity|]. split; [vm_compute; reflexivity|]. repeat split; vm_compute; (reflexivity || discriminate).
    + eexists _, _, _. split; [reflexivity|]. split; [vm_compute; reflexivity|]. repeat split; vm_compute; (reflexivity || discriminate).
  - eexists _, _, _. split; [reflexivity|]. split; [vm_compute; reflexivity|]. repeat split; vm_compute; (reflexivity || discriminate).
Qed.
(** The first part cuts the older of two positions, the second ends it and cuts the newer one. *)
Example C69_unlock_ex : reachable cfg0 st3 /\
  (exists s', executes cfg0 st3 (unlock_part alice0 STAKED <$> [120; 230]) s' /\
    (bal s' alice - bal st3 alice, amount_at s' (alice, STAKED, 1000), amount_at s' (alice, STAKED, 1010)) = (350, 0, 60)) /\
  (exists s', executes cfg0 st3 [OpUnlock alice0 STAKED (Some (parts_total [120; 230]))] s' /\
    (bal s' alice - bal st3 alice, amount_at s' (alice, STAKED, 1000), amount_at s' (alice, STAKED, 1010)) = (350, 0, 60)).
Proof. split; [apply reach3|]. split; apply shows_executes; vm_compute; reflexivity. Qed.
