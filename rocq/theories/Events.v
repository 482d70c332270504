(** The typed events of the module. Each handler that emits one is written again
    with its events as (part of) the result; [EventsP.exec_ev_erase] proves that
    without the events the two versions are the same. Only events of this module
    are modelled, not those of the bank, IBC, hyperlane and wormhole. *)
From Verif Require Export System.

(** types/events.pb.go, types/v2/events.pb.go, types/portal/events.pb.go,
    types/vaults/events.pb.go. Simplification: enums are numbers, not names; the
    decimal attributes of transfer_sent are numbers. *)
Inductive event :=
| EvPaused (paused : bool)                                         (* Paused, Unpaused *)
| EvYieldClaimed (account : string) (amount : Z)
| EvIndexUpdated (old new totalPrincipal yieldAccrued : Z)
| EvYieldRecipientSet (provider : Z) (id recipient : string)
| EvPositionLocked (account : string) (vault index amount principal : Z)
| EvPositionUnlocked (account : string) (vault index amount principal : Z)
| EvRewardClaimed (account : string) (amount : Z)
| EvVaultsPaused (paused : Z)                                      (* PausedStateUpdated *)
| EvDelivered (vaa : bytes)
| EvMTokenReceived (sourceChain : Z) (token sender : bytes) (recipient : string) (amount index : Z) (messageId : bytes)
| EvTransferRedeemed (digest : bytes)
| EvUSDNTokenSent (sourceToken : bytes) (chain : Z) (token : bytes) (sender : string) (recipient : bytes)
    (amount index : Z) (messageId : bytes)
| EvTransferSent (recipient : bytes) (amount chain sequence : Z)   (* transfer_sent *)
| EvTransferSentDigest (digest : bytes)                            (* transfer_sent *)
| EvPortalPaused (paused : bool)                                   (* portal Paused, Unpaused *)
| EvPeerUpdated (chain : Z) (oldTransceiver newTransceiver oldManager newManager : bytes)
| EvBridgingPathSet (chain : Z) (token : bytes) (supported : bool)
| EvOwnershipTransferred (previous new : string).

(** * keeper/msg_server.go *)

(** keeper/msg_server.go:52-71 ClaimYield *)
Definition claim_yield_ev (c : config) (signer : string) : M (list event) :=
  paused <- gets (fun s => d_paused (st_dollar s));;
  if (paused : bool) then fail EPaused else
  ya <- get_yield c signer;;
  amt <- new_coins ya.1;;
  send_to_account c YieldA ya.2 amt;;;
  ret [EvYieldClaimed signer ya.1].

(** keeper/msg_server.go:138-163; returns the total principal and the yield of the event *)
Definition accrue_yield_ev (i : Z) : M (Z * Z) :=
  modify (fun s => s <| st_dollar; d_index := i |>);;;
  tp <- get_total_principal;;
  current <- gets supply;;
  expected <- lift (present_amount tp i);;
  diff <- lift (int_sub expected current);;
  amt <- new_coins diff;;
  whenb (0 <? amt)
    (mint_coins amt;;;
     send_coins ModuleA YieldA amt;;;
     increment_total_yield amt);;;
  ret (tp, if 0 <? amt then amt else 0).

(** keeper/msg_server.go:123-193 UpdateIndex: the event comes last *)
Definition update_index_ev (c : config) (x : oracle) (i : Z) : M (list event) :=
  old <- get_index;;
  if i <=? old then fail EDecreasingIndex else
  ty <- accrue_yield_ev i;;
  ended <- gets (fun s => v_ended (st_vaults s));;
  (if (ended : bool) then vaults_yield_season_two c else vaults_yield_season_one c i);;;
  claim_external_ibc c x;;;
  claim_external_hyp c x;;;
  ret [EvIndexUpdated old i ty.1 ty.2].

(** Events of a call whose error is ignored. (Only used for UpdateIndex, which has
    emitted nothing when it fails.) *)
Definition attempt (m : M (list event)) : M (list event) := fun s =>
  match m s with
  | Ok s' evs => Ok s' evs
  | Err s' _ => Ok s' []
  | Panic => Panic
  end.

(** keeper/msg_server.go:105-121 Mint *)
Definition mint_ev (c : config) (x : oracle) (to : addr) (amount i : Z) : M (list event) :=
  evs <- attempt (update_index_ev c x i);;
  amt <- new_coins amount;;
  mint_coins amt;;;
  send_to_account c ModuleA to amt;;;
  ret evs.

(** * keeper/msg_server_vaults.go *)

(** keeper/msg_server_vaults.go:48-154 Lock *)
Definition lock_ev (c : config) (signer : string) (vault : Z) (amount : option Z) : M (list event) :=
  ended <- gets (fun s => v_ended (st_vaults s));;
  if (vault =? FLEXIBLE) && ended then fail EPaused else
  paused <- gets (fun s => v_paused (st_vaults s));;
  if (paused =? PAUSE_ALL) || (paused =? PAUSE_LOCK) then fail EPaused else
  match c_dec c signer with
  | None => fail EDecode
  | Some a =>
  match amount with
  | None => panic
  | Some amount =>
  if amount <? c_min_lock c then fail EInvalidAmount else
  if negb (vault_exists vault) then fail EInvalidVault else
  now <- gets (fun s => x_now (st_world s));;
  let key := (a, vault, now) in
  has <- gets (fun s => bool_decide (is_Some (v_positions (st_vaults s) !! key)));;
  if (has : bool) then fail EDuplicate else
  b <- gets (fun s => bal s a);;
  if b <? amount then fail EInvalidAmount else
  amt <- new_coins amount;;
  send_coins a (position_account signer vault now) amt;;;
  i <- get_index;;
  p <- lift (principal_down amount i);;
  set_position key (mk_position p i amount now);;;
  (if vault =? FLEXIBLE then
     total <- gets (fun s => v_total_flex (st_vaults s));;
     total' <- lift (int_add total p);;
     modify (fun s => s <| st_vaults; v_total_flex := total' |>)
   else ret tt);;;
  n <- gets (fun s => length (positions_of s a vault));;
  whenb (Nat.eqb n 1) (increment_vault_users vault);;;
  increment_vault_principal vault p;;;
  ret [EvPositionLocked signer vault i amount p]
  end
  end.

(** keeper/msg_server_vaults.go:363-436 ClaimRewards: no event without principal in the
    flexible vault *)
Definition claim_rewards_ev (c : config) (a : addr) (p : position) (amount : Z) : M (Z * list event) :=
  vp <- get_principal FlexibleA;;
  if negb (0 <? vp) then ret (0, []) else
  currentIndex <- get_index;;
  ap <- lift (principal_down amount (pos_index p));;
  records <- gets (fun s => rewards_above s (pos_index p));;
  total <- walk_rewards currentIndex ap records 0;;
  amt <- new_coins total;;
  send_coins FlexibleA a amt;;;
  ret (total, [EvRewardClaimed (c_enc c a) total]).

(** keeper/msg_server_vaults.go:227-322 the loop over the positions: the event says the
    amount sent, in the flexible vault with the yield of the position *)
Fixpoint unlock_loop_ev (c : config) (signer : string) (a : addr) (vault : Z)
    (l : list position) (remaining removed : Z) : M (Z * Z * list event) :=
  match l with
  | [] => ret (remaining, removed, [])
  | p :: l =>
    if remaining =? 0 then ret (remaining, removed, []) else
    let part := if remaining <? pos_amount p then remaining else pos_amount p in
    pp <- lift (principal_down part (pos_index p));;
    sent <-
      (if vault =? FLEXIBLE then
         total <- gets (fun s => v_total_flex (st_vaults s));;
         total' <- lift (int_sub total pp);;
         modify (fun s => s <| st_vaults; v_total_flex := total' |>);;;
         rewards <- claim_rewards_ev c a p part;;
         increment_distributed rewards.1;;;
         y <- claim_module_yield c (position_account signer vault (pos_time p));;
         z <- (if 0 <? y then lift (int_add part y) else ret part);;
         ret (z, rewards.2)
       else ret (part, []));;
    amt <- new_coins sent.1;;
    send_coins (position_account signer vault (pos_time p)) a amt;;;
    let key := (a, vault, pos_time p) in
    (if pos_amount p <=? part then remove_position key
     else
       p' <- lift (int_sub (pos_principal p) pp);;
       a' <- lift (int_sub (pos_amount p) part);;
       set_position key (mk_position p' (pos_index p) a' (pos_time p)));;;
    removed' <- lift (int_add removed pp);;
    remaining' <- lift (int_sub remaining part);;
    rest <- unlock_loop_ev c signer a vault l remaining' removed';;
    ret (rest.1, sent.2 ++ EvPositionUnlocked signer vault (pos_index p) sent.1 pp :: rest.2)
  end.

(** keeper/msg_server_vaults.go:167-339 unlock and 156-165 Unlock *)
Definition unlock_ev (c : config) (signer : string) (vault : Z) (amount : option Z) : M (list event) :=
  ended <- gets (fun s => v_ended (st_vaults s));;
  if (vault =? FLEXIBLE) && ended then fail EPaused else
  paused <- gets (fun s => v_paused (st_vaults s));;
  if (paused =? PAUSE_ALL) || (paused =? PAUSE_UNLOCK) then fail EPaused else
  match c_dec c signer with
  | None => fail EDecode
  | Some a =>
  match amount with
  | None => fail EInvalidAmount
  | Some amount =>
  if negb (0 <? amount) then fail EInvalidAmount else
  if negb (vault_exists vault) then fail EInvalidVault else
  ps <- gets (fun s => positions_of s a vault);;
  total <- lift (sum_amounts ps 0);;
  if total <? amount then fail EInvalidAmount else
  if (amount <? c_min_unlock c) && negb (total =? amount) then fail EInvalidAmount else
  rr <- unlock_loop_ev c signer a vault ps amount 0;;
  if negb (rr.1.1 =? 0) then fail EInvalidAmount else
  n <- gets (fun s => length (positions_of s a vault));;
  whenb (Nat.eqb n 0) (decrement_vault_users vault);;;
  decrement_vault_principal vault rr.1.2;;;
  ret rr.2
  end
  end.

(** * The portal *)

(** types/portal/ntt/manager.go:59-64 ManagerMessageDigest *)
Definition message_id (c : config) (chain : Z) (m : manager_msg) : bytes := c_keccak c (digest_preimage chain m).

(** keeper/keeper.go:407-459 HandlePayload; [chain], [sender] and [id] are the
    EventsPayload of lines 393-397 *)
Definition handle_payload_ev (c : config) (x : oracle) (chain : Z) (sender id : bytes) (payload : slice) : M (list event) :=
  ty <- lift (get_payload_type payload);;
  match ty with
  | PTUnknown => ret []
  | PTToken =>
    t <- lift (decode_token_payload payload);;
    if negb (c_chain c =? tk_chain t) then fail EWrongChain else
    if negb (bool_decide (raw_token c = sl_bytes (tk_token t))) then fail EWrongToken else
    evs <- mint_ev c x (c_acct c (sl_bytes (tk_recipient t))) (tk_amount t) (tk_index t);;
    ret (evs ++
      [EvMTokenReceived chain (sl_bytes (tk_token t)) sender (c_enc c (c_acct c (sl_bytes (tk_recipient t))))
         (tk_amount t) (tk_index t) id;
       EvTransferRedeemed id])
  | PTIndex =>
    id <- lift (decode_index_payload payload);;
    if negb (c_chain c =? id.2) then fail EWrongChain else
    update_index_ev c x id.1
  end.

(** keeper/keeper.go:340-404 Deliver and keeper/msg_server_portal.go:48-56 *)
Definition deliver_ev (c : config) (x : oracle) (bz : bytes) : M (list event) :=
  paused <- gets (fun s => p_paused (st_portal s));;
  if (paused : bool) then fail EPaused else
  v <- parse_and_verify_vaa c bz;;
  pr <- gets (fun s => p_peers (st_portal s) !! va_chain v);;
  match pr with
  | None => fail EInvalidPeer
  | Some pr =>
    if negb (bool_decide (pr_transceiver pr = va_emitter v)) then fail EInvalidPeer else
    t <- lift (parse_transceiver (va_payload v));;
    if negb (bool_decide (pr_manager pr = sl_bytes (tp_source t))) then fail EInvalidPeer else
    if negb (bool_decide (padded_manager c = sl_bytes (tp_recipient t))) then fail EInvalidMessage else
    m <- lift (parse_manager (tp_manager t));;
    evs <- handle_payload_ev c x (va_chain v) (sl_bytes (mp_sender m))
      (message_id c (va_chain v) (mk_mm (sl_bytes (mp_id m)) (sl_bytes (mp_sender m)) (sl_bytes (mp_payload m))))
      (mp_payload m);;
    ret (evs ++ [EvDelivered bz])
  end.

(** keeper/msg_server_portal.go:58-174 Transfer *)
Definition transfer_ev (c : config) (post : bool) (signer : string) (chain : Z)
    (token recipient : bytes) (amount : option Z) : M (list event) :=
  paused <- gets (fun s => p_paused (st_portal s));;
  if (paused : bool) then fail EPaused else
  pr <- gets (fun s => p_peers (st_portal s) !! chain);;
  match pr with
  | None => fail EInvalidPeer
  | Some pr =>
  has <- gets (fun s => bool_decide (is_Some (p_paths (st_portal s) !! (chain, token))));;
  if negb has then fail EInvalidPath else
  if negb (blen recipient =? 32) then fail EInvalidRecipient else
  i <- get_index;;
  match amount with
  | None => panic
  | Some amount =>
  raw <- lift (int_uint64 amount);;
  let ntt := encode_ntt (mk_ntt raw (raw_token c) recipient chain (encode_additional i token)) in
  match c_dec c signer with
  | None => fail EDecode
  | Some a =>
  sender <- lift (pad32 (c_raw c a));;
  nonce <- increment_nonce;;
  id <- lift (pad32 (be_encode 4 nonce));;
  let mm := encode_manager (mk_mm id sender ntt) in
  let digest := message_id c (c_chain c) (mk_mm id sender ntt) in
  let tm := encode_transceiver (mk_tm (padded_manager c) (pr_manager pr) mm []) in
  burn a amount;;;
  if negb post then fail EExternal else
  modify (fun s => s <| st_world; x_posted ::= fun l => l ++ [(tm, nonce)] |>);;;
  z <- lift (int_int64 amount);;
  ret [EvUSDNTokenSent (raw_token c) chain token signer recipient amount i digest;
       EvTransferSent recipient z chain nonce; EvTransferSentDigest digest]
  end
  end
  end.

(** keeper/msg_server_portal.go:192-237 SetPeer: the old peer is read before the new one is
    written (line 216); an absent one has empty addresses *)
Definition set_peer_ev (c : config) (signer : string) (chain : Z) (transceiver manager : bytes) : M (list event) :=
  old <- gets (fun s => p_peers (st_portal s) !! chain);;
  set_peer c signer chain transceiver manager;;;
  ret [EvPeerUpdated chain (from_option pr_transceiver [] old) transceiver (from_option pr_manager [] old) manager].

(** [signed] for handlers with events *)
Definition signed_ev (c : config) (signer : string) (m : M (list event)) : M (list event) :=
  match c_dec c signer with
  | Some (AMod _) | Some (AEscrow _ _) => fail EUnsigned
  | _ => m
  end.

(** One message with its events. The other operations emit none of this module. *)
Definition exec_ev (c : config) (o : op) : M (list event) :=
  match o with
  | OpClaimYield signer => signed_ev c signer (claim_yield_ev c signer)
  (* keeper/msg_server.go:83-88 *)
  | OpSetPaused signer b => set_paused c signer b;;; ret [EvPaused b]
  (* keeper/msg_server_v2.go:83-87 *)
  | OpSetYieldRecipient signer p id r => set_yield_recipient c signer p id r;;; ret [EvYieldRecipientSet p id r]
  | OpLock signer v amt => signed_ev c signer (lock_ev c signer v amt)
  | OpUnlock signer v amt => signed_ev c signer (unlock_ev c signer v amt)
  (* keeper/msg_server_vaults.go:358-360 *)
  | OpVaultsSetPaused signer p => vaults_set_paused c signer p;;; ret [EvVaultsPaused p]
  | OpDeliver x bz => deliver_ev c x bz
  | OpTransfer post signer chain tok rc amt => signed_ev c signer (transfer_ev c post signer chain tok rc amt)
  (* keeper/msg_server_portal.go:184-189 *)
  | OpPortalSetPaused signer b => portal_set_paused signer b;;; ret [EvPortalPaused b]
  | OpSetPeer signer chain t m => set_peer_ev c signer chain t m
  (* keeper/msg_server_portal.go:266-270 *)
  | OpSetBridgingPath signer chain tok b => set_bridging_path c signer chain tok b;;; ret [EvBridgingPathSet chain tok b]
  (* keeper/msg_server_portal.go:289-292 *)
  | OpTransferOwnership signer o => transfer_ownership c signer o;;; ret [EvOwnershipTransferred signer o]
  | _ => exec c o;;; ret []
  end.

(** A history with its events: those of a message that fails are dropped with its writes. *)
Fixpoint events (c : config) (s : state) (l : list op) : list event :=
  match l with
  | [] => []
  | o :: l => (match exec_ev c o s with Ok _ evs => evs | _ => [] end) ++ events c (step c s o) l
  end.

(** * Reading the log *)

(** The settings that administrative messages change. *)
Record settings := mk_settings {
  se_paused : bool; se_recipients : gmap (Z * string) string; se_portal_paused : bool; se_owner : string;
  se_peers : gmap Z peer; se_paths : gmap (Z * bytes) bool; se_vaults_paused : Z }.
Definition settings_of (s : state) : settings :=
  mk_settings (d_paused (st_dollar s)) (d_recipients (st_dollar s)) (p_paused (st_portal s)) (p_owner (st_portal s))
    (p_peers (st_portal s)) (p_paths (st_portal s)) (v_paused (st_vaults s)).
(** A reader of the log that keeps the settings. *)
Definition read_setting (b : settings) (e : event) : settings :=
  let '(mk_settings p r pp o pe pa vp) := b in
  match e with
  | EvPaused x => mk_settings x r pp o pe pa vp
  | EvYieldRecipientSet q id rc => mk_settings p (<[(q, id) := rc]> r) pp o pe pa vp
  | EvPortalPaused x => mk_settings p r x o pe pa vp
  | EvOwnershipTransferred _ n => mk_settings p r pp n pe pa vp
  | EvPeerUpdated ch _ t _ m => mk_settings p r pp o (<[ch := mk_peer t m]> pe) pa vp
  | EvBridgingPathSet ch t x => mk_settings p r pp o pe (<[(ch, t) := x]> pa) vp
  | EvVaultsPaused x => mk_settings p r pp o pe pa x
  | _ => b
  end.
Definition read_settings (b : settings) (l : list event) : settings := foldl read_setting b l.

(** Sums over the log. *)
Definition log_sum (f : event -> Z) (l : list event) : Z := foldr Z.add 0 (f <$> l).
(** principal locked minus unlocked in a vault *)
Definition principal_in (v : Z) (e : event) : Z :=
  match e with
  | EvPositionLocked _ v' _ _ p => if v' =? v then p else 0
  | EvPositionUnlocked _ v' _ _ p => if v' =? v then - p else 0
  | _ => 0
  end.
(** what an unlock paid *)
Definition ev_paid (e : event) : Z :=
  match e with EvPositionUnlocked _ _ _ x _ => x | EvRewardClaimed _ x => x | _ => 0 end.
Definition ev_reward (e : event) : Z := match e with EvRewardClaimed _ x => x | _ => 0 end.
Definition ev_yield (e : event) : Z := match e with EvIndexUpdated _ _ _ y => y | _ => 0 end.
(** what came in or was accrued, minus what left *)
Definition ev_supply (e : event) : Z :=
  match e with
  | EvIndexUpdated _ _ _ y => y
  | EvMTokenReceived _ _ _ _ x _ _ => x
  | EvUSDNTokenSent _ _ _ _ _ x _ _ => - x
  | _ => 0
  end.
(** the digests of the delivered VAAs; the nonces of the messages sent *)
Definition ev_digests (c : config) (l : list event) : list bytes :=
  omap (fun e => match e with EvDelivered bz => va_digest <$> c_vaa c bz | _ => None end) l.
Definition ev_nonces (l : list event) : list Z :=
  omap (fun e => match e with EvTransferSent _ _ _ n => Some n | _ => None end) l.
(** the index after the log *)
Definition read_index (i : Z) (e : event) : Z := match e with EvIndexUpdated _ n _ _ => n | _ => i end.
