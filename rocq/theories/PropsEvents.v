(** C67: the events say what happened. *)
From Verif Require Import Spec Events EventsP Concrete PropsVaults PropsRewards PropsExt PropsLive.

(** The events of one message. *)
Definition evs_of (s : state) (o : op) : list event := match exec_ev cfg0 o s with Ok _ l => l | _ => [] end.

(** The handlers with events do what those without do. *)
Theorem C67_same : forall c o s,
  match exec_ev c o s, exec c o s with
  | Ok s1 _, Ok s2 _ => s1 = s2
  | Err s1 e1, Err s2 e2 => s1 = s2 /\ e1 = e2
  | Panic, Panic => True
  | _, _ => False
  end.
Proof. intros c o s. rewrite <- exec_ev_erase. by destruct (exec_ev c o s). Qed.
Print Assumptions C67_same.
Example C67_same_ex : length (evs_of st4 (OpUnlock alice0 FLEXIBLE (Some 1000))) = 4%nat /\
  succeeds cfg0 st4 (OpUnlock alice0 FLEXIBLE (Some 1000)) = true /\ succeeds cfg0 st4 (OpUnlock alice0 STAKED (Some 1000)) = false /\
  evs_of st4 (OpUnlock alice0 STAKED (Some 1000)) = [].
Proof. vm_compute. auto. Qed.

Theorem C67_claim : forall c g s s' evs, exec_ev c (OpClaimYield g) s = Ok s' evs ->
  exists b y, c_dec c g = Some (AUser b) /\ evs = [EvYieldClaimed g y] /\ 0 <= y /\
    bal s' (AUser b) = bal s (AUser b) + y /\ bal s' YieldA = bal s YieldA - y.
Proof. exact claim_event. Qed.
Print Assumptions C67_claim.
Example C67_claim_ex : evs_of st2 (OpClaimYield alice0) = [EvYieldClaimed alice0 100000] /\
  bal (after st2 (OpClaimYield alice0)) alice = bal st2 alice + 100000.
Proof. vm_compute. auto. Qed.

Theorem C67_lock : forall c g v amount s s' evs, chain_ok c -> exec_ev c (OpLock g v amount) s = Ok s' evs ->
  exists b amt q, c_dec c g = Some (AUser b) /\ amount = Some amt /\
    evs = [EvPositionLocked g v (current_index s) amt q] /\
    v_positions (st_vaults s') !! (AUser b, v, x_now (st_world s)) = Some (mk_position q (current_index s) amt (x_now (st_world s))) /\
    vault_principal s' v = vault_principal s v + q /\ bal s' (AUser b) = bal s (AUser b) - amt /\
    (forall w, w <> v -> vault_principal s' w = vault_principal s w) /\ distributed s' = distributed s.
Proof. exact lock_event. Qed.
Print Assumptions C67_lock.
Example C67_lock_ex : evs_of st2 (OpLock alice0 FLEXIBLE (Some 1000)) = [EvPositionLocked alice0 FLEXIBLE 1100000000000 1000 909].
Proof. vm_compute. auto. Qed.

Theorem C67_unlock : forall c g v amount s s' evs, chain_ok c -> reachable c s -> exec_ev c (OpUnlock g v amount) s = Ok s' evs ->
  exists b amt, c_dec c g = Some (AUser b) /\ amount = Some amt /\
    Forall (unlock_event g (c_enc c (AUser b)) v) evs /\
    bal s' (AUser b) = bal s (AUser b) + log_sum ev_paid evs /\
    distributed s' = distributed s + log_sum ev_reward evs /\
    (forall w, vault_principal s' w = vault_principal s w + log_sum (principal_in w) evs) /\
    (v = STAKED -> log_sum ev_paid evs = amt /\ log_sum ev_reward evs = 0).
Proof. intros c g v amount s s' evs Hc Hr. apply unlock_events; [done|by apply winv_reachable]. Qed.
Print Assumptions C67_unlock.
(** The amounts of the flexible vault contain yield: 1000 are unlocked, the events say 1219. *)
Example C67_unlock_ex :
  evs_of st4 (OpUnlock alice0 FLEXIBLE (Some 1000)) =
    [EvRewardClaimed alice0 0; EvPositionUnlocked alice0 FLEXIBLE 1100000000000 236 181;
     EvRewardClaimed alice0 3; EvPositionUnlocked alice0 FLEXIBLE 1100000000000 983 727] /\
  bal (after st4 (OpUnlock alice0 FLEXIBLE (Some 1000))) alice = bal st4 alice + 236 + 3 + 983 /\
  log_sum ev_paid (evs_of st4 (OpUnlock alice0 STAKED (Some 400))) = 400.
Proof. vm_compute. auto. Qed.

(** The principals and indexes in the events are those of the positions in their order,
    all but the last of them unlocked whole. *)
Theorem C67_positions : forall c g v amount s s' evs, chain_ok c -> reachable c s -> exec_ev c (OpUnlock g v amount) s = Ok s' evs ->
  exists b amt l1 p l2 part, c_dec c g = Some (AUser b) /\ amount = Some amt /\
    positions_of s (AUser b) v = l1 ++ p :: l2 /\ foldr Z.add 0 (pos_amount <$> l1) + part = amt /\ 0 < part <= pos_amount p /\
    omap (fun e => match e with EvPositionUnlocked _ _ i _ q => Some (i, q) | _ => None end) evs =
      ((fun p => (pos_index p, Z.quot (pos_amount p * unit_index) (pos_index p))) <$> l1) ++
      [(pos_index p, Z.quot (part * unit_index) (pos_index p))].
Proof. intros c g v amount s s' evs Hc Hr. apply unlock_positions; [done|by apply winv_reachable]. Qed.
Print Assumptions C67_positions.
Example C67_positions_ex : pos_amount <$> positions_of st4 alice FLEXIBLE = [200; 1000] /\
  omap unlocked (evs_of st4 (OpUnlock alice0 FLEXIBLE (Some 1000))) = [(1100000000000, 181); (1100000000000, 727)].
Proof. vm_compute. auto. Qed.

(** The first event says a reward, be it 0, if the flexible vault has principal. *)
Theorem C67_reward : forall c g v amount s s' evs, chain_ok c -> reachable c s -> exec_ev c (OpUnlock g v amount) s = Ok s' evs ->
  (exists a x, head evs = Some (EvRewardClaimed a x)) <-> v = FLEXIBLE /\ 0 < prin s FlexibleA.
Proof. intros c g v amount s s' evs Hc Hr. apply unlock_rewards; [done|by apply winv_reachable]. Qed.
Print Assumptions C67_reward.
Example C67_reward_ex : (0 <? prin st4 FlexibleA) = true /\
  head (evs_of st4 (OpUnlock alice0 FLEXIBLE (Some 1000))) = Some (EvRewardClaimed alice0 0) /\
  let s := after st2 (OpLock alice0 FLEXIBLE (Some 1000)) in
  prin s FlexibleA = 0 /\ evs_of s (OpUnlock alice0 FLEXIBLE (Some 1000)) = [EvPositionUnlocked alice0 FLEXIBLE 1100000000000 1000 909].
Proof. vm_compute. auto. Qed.

Theorem C67_index : forall c x bz i s s' evs, chain_ok c -> reachable c s -> carried_index c bz = Some i ->
  exec_ev c (OpDeliver x bz) s = Ok s' evs ->
  exists y, evs = [EvIndexUpdated (current_index s) i (total_principal s) y; EvDelivered bz] /\ 0 <= y /\
    current_index s' = i /\ supply s' = supply s + y /\
    ds_yield (d_stats (st_dollar s')) = ds_yield (d_stats (st_dollar s)) + y.
Proof. intros c x bz i s s' evs Hc Hr. apply index_events. by apply winv_reachable. Qed.
Print Assumptions C67_index.
Example C67_index_ex : carried_index cfg0 (index_vaa 3 1100000000000) = Some 1100000000000 /\
  head (evs_of st1 (reindex 3 1100000000000)) = Some (EvIndexUpdated e12 1100000000000 1500000 150000).
Proof. vm_compute. auto. Qed.

(** A token message reports an index update only if that succeeded; [ignored] is the
    case of Finding 19. *)
Theorem C67_token : forall c x bz t s s' evs, chain_ok c -> reachable c s -> carried_token c bz = Some t ->
  exec_ev c (OpDeliver x bz) s = Ok s' evs ->
  exists ch m us, manager_message c bz = Some (ch, m) /\
    evs = us ++ [EvMTokenReceived ch (sl_bytes (tk_token t)) (mm_sender m) (c_enc c (c_acct c (sl_bytes (tk_recipient t))))
                   (tk_amount t) (tk_index t) (message_id c ch m);
                 EvTransferRedeemed (message_id c ch m); EvDelivered bz] /\
    ((exists y, us = [EvIndexUpdated (current_index s) (tk_index t) (total_principal s) y] /\ 0 <= y /\
        current_index s' = tk_index t /\ supply s' = supply s + y + tk_amount t /\ total_yield s' = total_yield s + y) \/
     us = [] /\ tk_index t <= current_index s /\
        current_index s' = current_index s /\ supply s' = supply s + tk_amount t /\ total_yield s' = total_yield s \/
     us = [] /\ ignored c s (OpDeliver x bz) /\ current_index s < tk_index t /\ current_index s' = tk_index t /\
        exists n y, 0 <= n /\ n = Z.quot (total_principal s * tk_index t) unit_index - supply s /\ (y = n \/ y = 0) /\
          supply s' = supply s + n + tk_amount t /\ total_yield s' = total_yield s + y).
Proof. intros c x bz t s s' evs Hc Hr. apply token_events; [done|by apply winv_reachable]. Qed.
Print Assumptions C67_token.
Example C67_token_ex : let l := evs_of st4 (issue 31 alice 100 1400000000000) in
  length l = 4%nat /\ log_sum ev_supply l = 150100 /\ head l = Some (EvIndexUpdated 1300000000000 1400000000000 1500000 150000) /\
  length (evs_of st4 (issue 31 alice 100 1300000000000)) = 3%nat.
Proof. vm_compute. auto. Qed.

Theorem C67_other : forall c x bz s s' evs, carried_index c bz = None -> carried_token c bz = None ->
  exec_ev c (OpDeliver x bz) s = Ok s' evs ->
  evs = [EvDelivered bz] /\ current_index s' = current_index s /\ supply s' = supply s /\ total_yield s' = total_yield s.
Proof. exact unknown_events. Qed.
Print Assumptions C67_other.
Example C67_other_ex : let bz := mk_vaa_bytes 41 (Byte.x99 :: Byte.x45 :: Byte.x54 :: replicate 40 Byte.x07) in
  carried_index cfg0 bz = None /\ carried_token cfg0 bz = None /\ evs_of st4 (OpDeliver allok bz) = [EvDelivered bz].
Proof. vm_compute. auto. Qed.

Theorem C67_transfer : forall c ps g ch tok rc amount s s' evs, chain_ok c -> reachable c s ->
  exec_ev c (OpTransfer ps g ch tok rc amount) s = Ok s' evs ->
  exists b amt to mm d, c_dec c g = Some (AUser b) /\ amount = Some amt /\ 0 <= amt /\
    evs = [EvUSDNTokenSent (raw_token c) ch tok g rc amt (current_index s) d;
           EvTransferSent rc amt ch (p_nonce (st_portal s)); EvTransferSentDigest d] /\
    d = c_keccak c (be_encode 2 (c_chain c) ++ mm) /\
    x_posted (st_world s') = x_posted (st_world s) ++ [(encode_transceiver (mk_tm (padded_manager c) to mm []), p_nonce (st_portal s))] /\
    supply s' = supply s - amt /\ bal s' (AUser b) = bal s (AUser b) - amt.
Proof. intros c ps g ch tok rc amount s s' evs Hc Hr. apply transfer_events. by apply winv_reachable. Qed.
Print Assumptions C67_transfer.
Definition send1000 : op := OpTransfer true alice0 2 eth_token (replicate 32 Byte.x01) (Some 1000).
Example C67_transfer_ex : length (evs_of st4 send1000) = 3%nat /\ log_sum ev_supply (evs_of st4 send1000) = -1000 /\
  ev_nonces (evs_of (after st4 send1000) send1000) = [1].
Proof. vm_compute. auto. Qed.

(** * Reading the log of a history *)

(** The settings can be kept from the events alone. *)
Theorem C67_settings : forall c s0 l, chain_ok c -> fresh c s0 ->
  settings_of (run c s0 l) = read_settings (settings_of s0) (events c s0 l).
Proof. intros c s0 l Hc Hf. apply settings_history; [done|by apply winv_fresh]. Qed.
Print Assumptions C67_settings.
Example C67_settings_ex :
  let l := setup ++ [OpSetPaused authority true; OpPortalSetPaused owner0 true; OpSetPaused authority false; OpVaultsSetPaused authority 2;
                     OpTransferOwnership owner0 alice0; OpPortalSetPaused owner0 false] in
  let b := read_settings (settings_of init0) (events cfg0 init0 l) in
  se_paused b = false /\ se_portal_paused b = true /\ se_vaults_paused b = 2 /\ se_owner b = alice0 /\
  bool_decide (is_Some (se_peers b !! 2)) = true /\ se_paths b !! (2, eth_token) = Some true /\ length (events cfg0 init0 l) = 7%nat.
Proof. vm_compute. auto 10. Qed.

(** The old values in an event are what the events before it said. *)
Theorem C67_past : forall c s0 l e1 e e2, chain_ok c -> fresh c s0 -> events c s0 l = e1 ++ e :: e2 ->
  let b := read_settings (settings_of s0) e1 in
  match e with
  | EvPeerUpdated ch t _ m _ =>
    match se_peers b !! ch with Some pr => t = pr_transceiver pr /\ m = pr_manager pr | None => t = [] /\ m = [] end
  | EvOwnershipTransferred a _ => a = se_owner b
  | _ => True
  end.
Proof. intros c s0 l e1 e e2 Hc Hf. apply past_history; [done|by apply winv_fresh]. Qed.
Print Assumptions C67_past.
Example C67_past_ex :
  let l := setup ++ [OpSetPeer owner0 2 (replicate 32 Byte.x05) (replicate 32 Byte.x06); OpTransferOwnership owner0 alice0;
                     OpSetPeer owner0 2 (replicate 32 Byte.x01) (replicate 32 Byte.x01);
                     OpSetPeer alice0 2 (replicate 32 Byte.x07) (replicate 32 Byte.x08); OpTransferOwnership alice0 bob0] in
  let old := omap (fun e => match e with EvPeerUpdated _ t _ m _ => Some (length t, head t, head m) | _ => None end) (events cfg0 init0 l) in
  drop 1 old = [(32%nat, head eth_transceiver, head eth_manager); (32%nat, Some Byte.x05, Some Byte.x06)] /\
  head old = Some (0%nat, None, None) /\
  omap (fun e => match e with EvOwnershipTransferred a b => Some (a, b) | _ => None end) (events cfg0 init0 l) = [(owner0, alice0); (alice0, bob0)].
Proof. vm_compute. auto. Qed.

(** The principal of each vault and the distributed rewards. *)
Theorem C67_vaults : forall c s0 l, chain_ok c -> fresh c s0 ->
  (forall v, vault_principal (run c s0 l) v = vault_principal s0 v + log_sum (principal_in v) (events c s0 l)) /\
  distributed (run c s0 l) = distributed s0 + log_sum ev_reward (events c s0 l).
Proof. intros c s0 l Hc Hf. apply vaults_history; [done|by apply winv_fresh]. Qed.
Print Assumptions C67_vaults.
Example C67_vaults_ex : let l := ops4 ++ [OpUnlock bob0 FLEXIBLE (Some 15000); OpUnlock alice0 STAKED (Some 400)] in
  let e := events cfg0 init0 l in
  log_sum (principal_in STAKED) e = vault_principal (run cfg0 init0 l) STAKED /\ vault_principal (run cfg0 init0 l) STAKED = 464 /\
  log_sum (principal_in FLEXIBLE) e = 5635 /\ log_sum ev_reward e = 58.
Proof. vm_compute. auto. Qed.

(** The consumed VAAs, none twice, and the nonces of the posted messages. *)
Theorem C67_bridge : forall c s0 l, chain_ok c -> fresh c s0 ->
  x_vaas (st_world (run c s0 l)) = list_to_set (ev_digests c (events c s0 l)) ∪ x_vaas (st_world s0) /\
  NoDup (ev_digests c (events c s0 l)) /\ (forall d, d ∈ ev_digests c (events c s0 l) -> d ∉ x_vaas (st_world s0)) /\
  (x_posted (st_world (run c s0 l))).*2 = (x_posted (st_world s0)).*2 ++ ev_nonces (events c s0 l).
Proof. intros c s0 l Hc Hf. apply bridge_history; [done|by apply winv_fresh]. Qed.
Print Assumptions C67_bridge.
Example C67_bridge_ex : let e := events cfg0 init0 (ops4 ++ [issue 31 alice 1 e12; issue 31 alice 1 e12; send1000; send1000]) in
  length (ev_digests cfg0 e) = 6%nat /\ ev_nonces e = [0; 1].
Proof. vm_compute. auto. Qed.

(** False: the index, the supply and the accrued yield follow from the log. A token
    message whose index update fails midway keeps the new index and the minted
    yield, but no event says so. *)
Theorem C67_money_refuted : exists c s0 l, chain_ok c /\ fresh c s0 /\
  current_index (run c s0 l) <> foldl read_index (current_index s0) (events c s0 l) /\
  supply (run c s0 l) <> supply s0 + log_sum ev_supply (events c s0 l) /\
  total_yield (run c s0 l) <> total_yield s0 + log_sum ev_yield (events c s0 l).
Proof.
  exists cfg0, init0, (blocked_router ++ [issue 31 alice 100 i11]).
  split; [apply chain0_ok|]. split; [apply init0_fresh|].
  assert (H : (current_index (run cfg0 init0 (blocked_router ++ [issue 31 alice 100 i11])) =? foldl read_index (current_index init0) (events cfg0 init0 (blocked_router ++ [issue 31 alice 100 i11]))) = false /\
    (supply (run cfg0 init0 (blocked_router ++ [issue 31 alice 100 i11])) =? supply init0 + log_sum ev_supply (events cfg0 init0 (blocked_router ++ [issue 31 alice 100 i11]))) = false /\
    (total_yield (run cfg0 init0 (blocked_router ++ [issue 31 alice 100 i11])) =? total_yield init0 + log_sum ev_yield (events cfg0 init0 (blocked_router ++ [issue 31 alice 100 i11]))) = false)
    by (vm_compute; auto).
  destruct H as (H1 & H2 & H3). split; [by apply Z.eqb_neq|]. split; by apply Z.eqb_neq.
Qed.
Print Assumptions C67_money_refuted.
(** The index does follow when the one in token events is taken into account, and the
    log never says more supply or yield than there is. *)
Theorem C67_log_bound : forall c s0 l, chain_ok c -> fresh c s0 ->
  let e := events c s0 l in
  current_index (run c s0 l) =
    foldl (fun i e => match e with EvIndexUpdated _ n _ _ => n | EvMTokenReceived _ _ _ _ _ n _ => Z.max i n | _ => i end) (current_index s0) e /\
  supply s0 + log_sum ev_supply e <= supply (run c s0 l) /\ total_yield s0 + log_sum ev_yield e <= total_yield (run c s0 l).
Proof. intros c s0 l Hc Hf. apply bound_history; [done|by apply winv_fresh]. Qed.
Print Assumptions C67_log_bound.
Example C67_log_bound_ex : let l := blocked_router ++ [issue 31 alice 100 i11] in let e := events cfg0 init0 l in
  (foldl read_index (current_index init0) e <? foldl read_indexes (current_index init0) e) = true /\
  foldl read_indexes (current_index init0) e = i11 /\ current_index (run cfg0 init0 l) = i11 /\
  (log_sum ev_supply e <? supply (run cfg0 init0 l)) = true.
Proof. vm_compute. auto. Qed.
(** They do as long as no failed update was ignored. *)
Theorem C67_money_partial : forall c s0 l, chain_ok c -> fresh c s0 -> none_ignored c s0 l ->
  current_index (run c s0 l) = foldl read_index (current_index s0) (events c s0 l) /\
  supply (run c s0 l) = supply s0 + log_sum ev_supply (events c s0 l) /\
  total_yield (run c s0 l) = total_yield s0 + log_sum ev_yield (events c s0 l).
Proof. intros c s0 l Hc Hf. apply money_history; [done|by apply winv_fresh]. Qed.
Print Assumptions C67_money_partial.
(** Whether the update of a delivery fails can be computed. *)
Definition ignores (s : state) (o : op) : bool :=
  match o with
  | OpDeliver x bz =>
    match carried_token cfg0 bz, c_vaa cfg0 bz with
    | Some t, Some v => (current_index s <? tk_index t) &&
        match update_index cfg0 x (tk_index t) (OpsP.consume s (va_digest v)) with Err _ _ => true | _ => false end
    | _, _ => false
    end
  | _ => false
  end.
Fixpoint ignores_none (s : state) (l : list op) : bool :=
  match l with [] => true | o :: l => negb (ignores s o) && ignores_none (step cfg0 s o) l end.
Lemma ignores_none_ok l : forall s, ignores_none s l = true -> none_ignored cfg0 s l.
Proof.
  induction l as [|o l IH]; intros s; cbn [ignores_none none_ignored]; [done|]. intros [H1 H2]%andb_true_iff. split; [|by apply IH].
  intros (x & bz & t & v & s1 & e & -> & Ht & Hv & Hi & Hu). unfold ignores in H1. rewrite Ht, Hv, Hu in H1.
  by rewrite (proj2 (Z.ltb_lt _ _) Hi) in H1.
Qed.
Example C67_money_partial_ex : let l := ops4 ++ [issue 31 alice 100 1400000000000; send1000] in
  none_ignored cfg0 init0 l /\ log_sum ev_supply (events cfg0 init0 l) = 2099100 /\ log_sum ev_yield (events cfg0 init0 l) = 600000.
Proof. split; [apply ignores_none_ok; vm_compute; reflexivity|]. vm_compute. auto. Qed.
