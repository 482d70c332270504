(** C02-C10, C13, C46, C48: transfers, issuance, yield, failures. *)
From Verif Require Import Spec Concrete CoreThmP.

(** * C02 *)
Theorem C02_transfer_effect : forall s s' f t x,
  ordinary_account f -> ordinary_account t -> 0 < x -> 0 < current_index s ->
  send_coins f t x s = Ok s' tt -> transferred s s' f t x.
Proof. exact transfer_effect. Qed.
Print Assumptions C02_transfer_effect.
Example C02_transfer_effect_ex :
  match send_coins alice bob 100 st2 with
  | Ok s' _ => (bal s' alice, bal s' bob, prin s' alice, prin s' bob) = (999900, 500100, 999909, 500091)
  | _ => False
  end.
Proof. vm_compute. reflexivity. Qed.
(** Sending to oneself moves nothing. *)
Example C02_transfer_self_ex :
  match send_coins alice alice 100 st2 with Ok s' _ => (bal s' alice, prin s' alice) = (1000000, 1000000) | _ => False end.
Proof. vm_compute. reflexivity. Qed.

Theorem C02_transfer_accepts : forall s f t x,
  ordinary_account f -> ordinary_account t -> 0 < x -> 0 < current_index s -> transfer_in_range s f t x ->
  (exists s', send_coins f t x s = Ok s' tt) <-> x <= bal s f.
Proof. exact transfer_accepts. Qed.
Print Assumptions C02_transfer_accepts.
Example C02_transfer_accepts_ex : transfer_in_range st2 alice bob 1000000 /\
  match send_coins alice bob 1000000 st2 with Ok _ _ => True | _ => False end /\
  match send_coins alice bob 1000001 st2 with Err _ e => e = EInsufficientFunds | _ => False end.
Proof. split; [constructor; vm_compute; reflexivity|]. vm_compute. auto. Qed.

(** The same at the level of the bank's message. *)
Theorem C02_send_message : forall c s s' f t x, chain_ok c -> reachable c s ->
  succeeds_with c s (OpSend f t x) s' -> transferred s s' f t x /\ 0 < x <= bal s f.
Proof. exact transfer_message. Qed.
Print Assumptions C02_send_message.
Example C02_send_message_ex : succeeds cfg0 st2 (OpSend alice bob 100) = true /\ reachable cfg0 st2.
Proof. split; [vm_compute; reflexivity|apply reach2]. Qed.

(** And of its message with several outputs. *)
Theorem C02_multi_message : forall c s s' f outs, chain_ok c -> reachable c s ->
  succeeds_with c s (OpMultiSend f outs) s' ->
  paid_out s s' f outs /\ Forall (fun ta => 0 < ta.2) outs /\ 0 < outputs_total outs <= bal s f.
Proof. exact multi_message. Qed.
Print Assumptions C02_multi_message.
Example C02_multi_message_ex :
  let o := OpMultiSend alice [(bob, 100); (carol, 200); (bob, 1); (alice, 10)] in
  succeeds cfg0 st2 o = true /\ reachable cfg0 st2 /\
  (bal (after st2 o) alice, bal (after st2 o) bob, bal (after st2 o) carol) = (999699, 500101, 200) /\
  (prin (after st2 o) alice, prin (after st2 o) bob, prin (after st2 o) carol) = (999726, 500092, 182).
Proof. split; [vm_compute; reflexivity|]. split; [apply reach2|]. vm_compute. auto. Qed.

(** * C03 *)
Theorem C03_books_balanced : forall c s0 ops, chain_ok c -> fresh c s0 ->
  0 <= total_principal (run c s0 ops) - map_sum (d_principal (st_dollar (run c s0 ops)))
    <= count_ops (issuance c) c s0 ops.
Proof. exact books_sum. Qed.
Print Assumptions C03_books_balanced.
(** At index 1.1 an issuance of 10 is worth 9.09 principal: 10 are booked in the
    total, 9 for the account. *)
Example C03_books_balanced_ex :
  let s := after st2 (issue 4 alice 10 1100000000000) in
  total_principal s - map_sum (d_principal (st_dollar s)) = 1 /\ total_principal s = 1500010.
Proof. vm_compute. auto. Qed.

(** * C04 *)
Theorem C04_conserved : forall c s, chain_ok c -> reachable c s ->
  supply s = map_sum (bk_bal (st_bank s)) /\ forall a, 0 <= bal s a.
Proof. exact conserved. Qed.
Print Assumptions C04_conserved.
Example C04_conserved_ex : reachable cfg0 st2 /\ supply st2 = 1650000 /\ bal st2 YieldA = 150000.
Proof. split; [apply reach2|vm_compute; auto]. Qed.

Theorem C04_supply_changes : forall c s o s', chain_ok c -> reachable c s -> succeeds_with c s o s' ->
  match o with
  | OpDeliver _ bz => exists n, 0 <= n /\ supply s' = supply s + n + issued_amount c s o /\
      (current_index s' = current_index s -> n = 0) /\ 0 <= issued_amount c s o
  | OpTransfer _ _ _ _ _ amount => exists x, amount = Some x /\ 0 <= x /\ supply s' = supply s - x
  | _ => supply s' = supply s
  end.
Proof. exact supply_changes. Qed.
Print Assumptions C04_supply_changes.
Example C04_supply_changes_ex :
  supply (after st1 (issue 4 alice 10 1200000000000)) = 1800010 /\
  supply (after st2 (OpTransfer true (enc0 alice) 2 eth_token (replicate 32 Byte.x01) (Some 1000))) = 1649000.
Proof. vm_compute. auto. Qed.

(** * C05 *)
Theorem C05_yield_refuses : forall f x s, x <> 0 -> f <> ModuleA -> f <> YieldA ->
  forall s', send_coins f YieldA x s <> Ok s' tt.
Proof. exact yield_refuses. Qed.
Print Assumptions C05_yield_refuses.
Example C05_yield_refuses_ex :
  match send_coins alice YieldA 5 st2 with Err _ e => e = EToYield | _ => False end /\ 5 <= bal st2 alice.
Proof. vm_compute. split; [reflexivity|discriminate]. Qed.
Theorem C05_yield_messages : forall c s, chain_ok c -> reachable c s ->
  (forall f x, rejected c s (OpSend f YieldA x)) /\
  (forall f outs x, (YieldA, x) ∈ outs -> rejected c s (OpMultiSend f outs)) /\
  (forall chan rc x, c_dec c rc = Some YieldA -> x <> 0 -> rejected c s (OpIbcRecv chan rc x)) /\
  (forall tok x, rejected c s (OpWarpRecv tok YieldA x)).
Proof. exact yield_messages. Qed.
Print Assumptions C05_yield_messages.
Example C05_yield_messages_ex : c_dec cfg0 (enc0 YieldA) = Some YieldA /\ reachable cfg0 st2.
Proof. split; [vm_compute; reflexivity|apply reach2]. Qed.
Theorem C05_only_deliveries : forall c s o s', chain_ok c -> reachable c s -> succeeds_with c s o s' ->
  (forall x bz, o <> OpDeliver x bz) -> bal s' YieldA <= bal s YieldA.
Proof. exact yield_only_deliveries. Qed.
Print Assumptions C05_only_deliveries.
Example C05_only_deliveries_ex :
  bal (after st2 (OpClaimYield (enc0 alice))) YieldA = 50000 /\ bal st2 YieldA = 150000.
Proof. vm_compute. auto. Qed.

(** * C06 *)
Theorem C06_index_monotone : forall c s l, chain_ok c -> reachable c s -> current_index s <= current_index (run c s l).
Proof. exact index_monotone. Qed.
Print Assumptions C06_index_monotone.
Example C06_index_monotone_ex : current_index st1 = 1000000000000 /\ current_index st2 = 1100000000000.
Proof. vm_compute. auto. Qed.
Theorem C06_index_update : forall c s s' x bz i, chain_ok c -> reachable c s -> carried_index c bz = Some i ->
  succeeds_with c s (OpDeliver x bz) s' -> current_index s < i /\ current_index s' = i.
Proof. exact index_update. Qed.
Print Assumptions C06_index_update.
Theorem C06_index_refused : forall c s x bz i, chain_ok c -> reachable c s -> carried_index c bz = Some i ->
  i <= current_index s -> rejected c s (OpDeliver x bz) /\ step c s (OpDeliver x bz) = s.
Proof. exact index_refused. Qed.
Print Assumptions C06_index_refused.
Example C06_index_refused_ex : carried_index cfg0 (index_vaa 9 1100000000000) = Some 1100000000000 /\
  match exec cfg0 (reindex 9 1100000000000) st2 with Err _ e => e = EDecreasingIndex | _ => False end.
Proof. vm_compute. auto. Qed.
(** A token VAA with an older index is accepted and leaves the index alone. *)
Theorem C06_index_token : forall c s s' x bz t, chain_ok c -> reachable c s -> carried_token c bz = Some t ->
  succeeds_with c s (OpDeliver x bz) s' -> current_index s' = Z.max (tk_index t) (current_index s).
Proof. exact index_token. Qed.
Print Assumptions C06_index_token.
Example C06_index_token_ex : succeeds cfg0 st2 (issue 9 bob 7 1050000000000) = true /\
  current_index (after st2 (issue 9 bob 7 1050000000000)) = 1100000000000 /\
  current_index (after st2 (issue 9 bob 7 1150000000000)) = 1150000000000.
Proof. vm_compute. auto. Qed.

(** * C07 *)
Theorem C07_index_mints_owed : forall c s s' x bz i, chain_ok c -> reachable c s -> carried_index c bz = Some i ->
  succeeds_with c s (OpDeliver x bz) s' ->
  supply s <= supply s' /\ supply s' = Z.max 0 (floor_div (total_principal s * i) unit_index) /\
  ds_yield (d_stats (st_dollar s')) = ds_yield (d_stats (st_dollar s)) + (supply s' - supply s) /\
  total_principal s' = total_principal s /\
  forall b, bal s (AUser b) <= bal s' (AUser b) /\ prin s (AUser b) <= prin s' (AUser b).
Proof. exact accrual_index. Qed.
Print Assumptions C07_index_mints_owed.
Example C07_index_mints_owed_ex :
  let s := after st2 (reindex 4 1234567890123) in
  supply s = 1851851 /\ total_principal st2 = 1500000 /\ ds_yield (d_stats (st_dollar s)) = 351851.
Proof. vm_compute. auto. Qed.
Theorem C07_token_mints_owed : forall c s s' x bz t, chain_ok c -> reachable c s -> carried_token c bz = Some t ->
  current_index s < tk_index t -> succeeds_with c s (OpDeliver x bz) s' ->
  supply s' = Z.max 0 (floor_div (total_principal s * tk_index t) unit_index) + tk_amount t.
Proof. exact accrual_token. Qed.
Print Assumptions C07_token_mints_owed.
Example C07_token_mints_owed_ex : supply (after st2 (issue 4 alice 10 1234567890123)) = 1851861.
Proof. vm_compute. reflexivity. Qed.
(** The accrual itself: everything goes to the yield account. *)
Theorem C07_accrual_credit : forall c s s' i, chain_ok c -> reachable c s -> accrue_yield i s = Ok s' tt ->
  let n := supply s' - supply s in
  supply s' = Z.max 0 (floor_div (total_principal s * i) unit_index) /\ 0 <= n /\
  (forall a, bal s' a = bal s a + on a YieldA n) /\ d_principal (st_dollar s') = d_principal (st_dollar s) /\
  ds_yield (d_stats (st_dollar s')) = ds_yield (d_stats (st_dollar s)) + n /\ current_index s' = i.
Proof. exact accrual_credit. Qed.
Print Assumptions C07_accrual_credit.
Example C07_accrual_credit_ex :
  match accrue_yield 1234567890123 st2 with Ok s' _ => bal s' YieldA = 150000 + 201851 | _ => False end.
Proof. vm_compute. reflexivity. Qed.

(** * C08 *)
Theorem C08_claim_pays : forall c s s' signer a, chain_ok c -> reachable c s -> c_dec c signer = Some a ->
  succeeds_with c s (OpClaimYield signer) s' ->
  let y := claimable s a in
  (forall b, bal s' b = bal s b - on b YieldA y + on b a y) /\ (y <= bal s YieldA \/ y = 0) /\
  supply s' = supply s /\ st_dollar s' = st_dollar s /\ st_portal s' = st_portal s /\ st_vaults s' = st_vaults s /\
  st_world s' = st_world s.
Proof. exact claim_pays. Qed.
Print Assumptions C08_claim_pays.
Example C08_claim_pays_ex : claimable st2 alice = 100000 /\ succeeds cfg0 st2 (OpClaimYield (enc0 alice)) = true /\
  bal (after st2 (OpClaimYield (enc0 alice))) alice = 1100000.
Proof. vm_compute. auto. Qed.
Theorem C08_claim_accepts : forall c s signer b, chain_ok c -> reachable c s -> c_dec c signer = Some (AUser b) ->
  d_paused (st_dollar s) = false -> c_blocked c (AUser b) = false ->
  int_range (prin s (AUser b) * current_index s) -> int_range (bal s (AUser b) + claimable s (AUser b)) ->
  claimable s (AUser b) <= bal s YieldA ->
  exists s', succeeds_with c s (OpClaimYield signer) s'.
Proof. exact claim_accepts. Qed.
Print Assumptions C08_claim_accepts.
Example C08_claim_accepts_ex : int_range (prin st2 alice * current_index st2) /\
  int_range (bal st2 alice + claimable st2 alice) /\ claimable st2 alice <= bal st2 YieldA /\
  c_dec cfg0 (enc0 alice) = Some alice.
Proof. vm_compute. repeat split; discriminate. Qed.

(** * C09 *)
Theorem C09_claim_twice : forall c s s' signer a, chain_ok c -> reachable c s -> c_dec c signer = Some a ->
  succeeds_with c s (OpClaimYield signer) s' ->
  claimable s' a = 0 /\ get_yield c signer s' = Ok s' (0, a) /\ succeeds_with c s' (OpClaimYield signer) s'.
Proof. exact claim_twice. Qed.
Print Assumptions C09_claim_twice.
Example C09_claim_twice_ex : claimable st2 alice = 100000 /\ claimable (after st2 (OpClaimYield (enc0 alice))) alice = 0.
Proof. vm_compute. auto. Qed.

(** * C10 *)
Theorem C10_paused_claims_fail : forall c s signer, d_paused (st_dollar s) = true ->
  rejected c s (OpClaimYield signer) /\ step c s (OpClaimYield signer) = s.
Proof. exact claim_paused'. Qed.
Print Assumptions C10_paused_claims_fail.
Example C10_paused_claims_fail_ex : d_paused (st_dollar (after st2 (OpSetPaused authority true))) = true /\
  succeeds cfg0 st2 (OpClaimYield (enc0 alice)) = true.
Proof. vm_compute. auto. Qed.
Theorem C10_paused_by_authority : forall c s o, chain_ok c -> reachable c s ->
  d_paused (st_dollar (step c s o)) <> d_paused (st_dollar s) ->
  o = OpSetPaused (c_authority c) (d_paused (st_dollar (step c s o))).
Proof. exact dollar_paused_by. Qed.
Print Assumptions C10_paused_by_authority.
Example C10_paused_by_authority_ex :
  d_paused (st_dollar (after st2 (OpSetPaused authority true))) <> d_paused (st_dollar st2) /\
  d_paused (st_dollar (after st2 (OpSetPaused (enc0 alice) true))) = d_paused (st_dollar st2).
Proof. vm_compute. split; [discriminate|reflexivity]. Qed.

(** * C13 *)
Theorem C13_funds_safe : forall c s o b, chain_ok c -> reachable c s -> signer_of c o <> Some (AUser b) ->
  bal s (AUser b) <= bal (step c s o) (AUser b) /\ prin s (AUser b) <= prin (step c s o) (AUser b).
Proof. exact funds_safe. Qed.
Print Assumptions C13_funds_safe.
Example C13_funds_safe_ex : signer_of cfg0 (OpClaimYield (enc0 bob)) <> Some alice /\
  bal (after st2 (OpClaimYield (enc0 bob))) alice = bal st2 alice /\
  bal (after st2 (OpSend alice bob 5)) alice = bal st2 alice - 5.
Proof. vm_compute. repeat split; discriminate. Qed.
Theorem C13_funds_safe_history : forall c s l b, chain_ok c -> reachable c s ->
  Forall (fun o => signer_of c o <> Some (AUser b)) l ->
  bal s (AUser b) <= bal (run c s l) (AUser b) /\ prin s (AUser b) <= prin (run c s l) (AUser b).
Proof. exact funds_safe_history. Qed.
Print Assumptions C13_funds_safe_history.
Example C13_funds_safe_history_ex :
  Forall (fun o => signer_of cfg0 o <> Some alice) [OpSend bob alice 7; reindex 5 1300000000000; OpClaimYield (enc0 bob)] /\
  bal (run cfg0 st2 [OpSend bob alice 7; reindex 5 1300000000000; OpClaimYield (enc0 bob)]) alice = 1000007.
Proof. split; [|vm_compute; reflexivity]. repeat constructor; vm_compute; discriminate. Qed.

(** * C46 *)
Theorem C46_failed_skipped : forall c s l, run c s l = run c s (successful c s l) /\
  forall o, rejected c s o -> run c s (o :: l) = run c s l.
Proof. exact failed_skipped. Qed.
Print Assumptions C46_failed_skipped.
Example C46_failed_skipped_ex :
  successful cfg0 st2 [OpSend alice YieldA 1; OpSend alice bob 1; reindex 7 1] = [OpSend alice bob 1].
Proof. vm_compute. reflexivity. Qed.

(** * C48 *)
Theorem C48_accrual_history : forall c s0 l, chain_ok c -> fresh c s0 ->
  Forall (fun s => ds_yield (d_stats (st_dollar s)) + supply s < 2 ^ 256) (history c s0 l) ->
  let s := run c s0 l in
  0 <= ds_yield (d_stats (st_dollar s)) /\
  supply s = supply s0 + count_ops (issued_amount c) c s0 l - count_ops (fun _ o => redeemed_amount s0 o) c s0 l
             + ds_yield (d_stats (st_dollar s)).
Proof. exact accrual_history. Qed.
Print Assumptions C48_accrual_history.
Example C48_accrual_history_ex :
  Forall (fun s => ds_yield (d_stats (st_dollar s)) + supply s < 2 ^ 256) (history cfg0 init0 ops1) /\
  count_ops (issued_amount cfg0) cfg0 init0 ops1 = 1500000.
Proof. split; [apply (bool_decide_eq_true_1 _); vm_compute; reflexivity|vm_compute; reflexivity]. Qed.
Theorem C48_accrual_monotone : forall c s l, chain_ok c -> reachable c s ->
  ds_yield (d_stats (st_dollar s)) <= ds_yield (d_stats (st_dollar (run c s l))).
Proof. exact accrual_monotone. Qed.
Print Assumptions C48_accrual_monotone.
Example C48_accrual_monotone_ex :
  ds_yield (d_stats (st_dollar st1)) = 0 /\ ds_yield (d_stats (st_dollar st2)) = 150000.
Proof. vm_compute. auto. Qed.
