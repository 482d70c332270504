(** The chain as a transition system: messages, packet callbacks and environment
    events, each executed atomically. *)
From Verif Require Export Vaults Portal Ibc.

(** Accounts that other modules and users dispose of: everything except this
    module's accounts, the warp module's and the IBC escrows. Module and escrow
    accounts have no keys. *)
Definition reserved_name (n : string) : bool :=
  bool_decide (n = "warp"%string) || String.prefix "dollar" n.
Definition external (a : addr) : bool :=
  match a with
  | AUser _ => true
  | AMod n => negb (reserved_name n)
  | AEscrow _ _ => false
  end.

Inductive op :=
(* block time moves on *)
| OpTime (seconds : Z)
(* an upgrade of the chain ends season one of the vaults and names the account
   that collects the yield of the staked vault from then on *)
| OpEndSeason (collector : addr)
(* messages of this module *)
| OpClaimYield (signer : string)
| OpSetPaused (signer : string) (paused : bool)
| OpSetYieldRecipient (signer : string) (provider : Z) (id recipient : string)
| OpLock (signer : string) (vault : Z) (amount : option Z)
| OpUnlock (signer : string) (vault : Z) (amount : option Z)
| OpVaultsSetPaused (signer : string) (paused : Z)
| OpDeliver (x : oracle) (vaa : bytes)
| OpTransfer (post : bool) (signer : string) (chain : Z) (token recipient : bytes) (amount : option Z)
| OpPortalSetPaused (signer : string) (paused : bool)
| OpSetPeer (signer : string) (chain : Z) (transceiver manager : bytes)
| OpSetBridgingPath (signer : string) (chain : Z) (token : bytes) (supported : bool)
| OpTransferOwnership (signer newOwner : string)
(* the bank: a user or another module pays *)
| OpSend (from to : addr) (amount : Z)
| OpMultiSend (from : addr) (outputs : list (addr * Z))
(* IBC *)
| OpIbcSend (o : outcome) (from : addr) (chan receiver : string) (amount : Z)
| OpIbcSendOther (ok : bool) (p : packet)
| OpIbcRecv (chan receiver : string) (amount : Z)
| OpIbcAck (n : nat) (a : ack)
| OpIbcTimeout (n : nat)
| OpChannelOpen (chan : string)
(* hyperlane *)
| OpWarpSend (o : outcome) (from : addr) (token domain : Z) (recipient : bytes) (amount : Z)
| OpWarpRecv (token : Z) (to : addr) (amount : Z)
| OpWarpToken (token : Z)
| OpWarpRouters (token : Z) (domains : list Z).

(** A message that moves the funds of its signer is signed by a key, so the signer
    is a user account. *)
Definition signed (c : config) (signer : string) (m : M unit) : M unit :=
  match c_dec c signer with
  | Some (AMod _) | Some (AEscrow _ _) => fail EUnsigned
  | _ => m
  end.

(** Take the [n]-th packet in flight (each packet is settled at most once). *)
Definition take_packet (n : nat) : M packet :=
  p <- gets (fun s => x_inflight (st_world s) !! n);;
  match p with
  | None => fail ENotFound
  | Some p =>
    modify (fun s => s <| st_world; x_inflight ::= delete n |>);;; ret p
  end.

(** Does the packet carry USDN? *)
Definition is_usdn (c : config) (p : packet) : bool :=
  match pk_data p with Some d => bool_decide (ft_denom d = c_denom c) | None => false end.

Definition exec (c : config) (o : op) : M unit :=
  match o with
  | OpTime dt =>
    if dt <? 0 then fail EMalformed else
    modify (fun s => s <| st_world; x_now ::= fun t => t + dt |>)
  | OpEndSeason a =>
    (* keeper/keeper.go:85-86: no message of the module writes these two items, an
       upgrade handler of the chain does; the collector it names is not one of the
       module's two own accounts (assumed, as for genesis) *)
    if bool_decide (a = ModuleA) then fail EMalformed else
    if bool_decide (a = YieldA) then fail EMalformed else
    modify (fun s => s <| st_vaults; v_ended := true |> <| st_vaults; v_collector := a |>)
  | OpClaimYield signer => signed c signer (claim_yield c signer)
  | OpSetPaused signer b => set_paused c signer b
  | OpSetYieldRecipient signer p id r => set_yield_recipient c signer p id r
  | OpLock signer v amt => signed c signer (lock c signer v amt)
  | OpUnlock signer v amt => signed c signer (unlock c signer v amt)
  | OpVaultsSetPaused signer p => vaults_set_paused c signer p
  | OpDeliver x bz => deliver c x bz
  | OpTransfer post signer chain tok rc amt =>
    signed c signer (transfer c post signer chain tok rc amt)
  | OpPortalSetPaused signer b => portal_set_paused signer b
  | OpSetPeer signer chain t m => set_peer c signer chain t m
  | OpSetBridgingPath signer chain tok b => set_bridging_path c signer chain tok b
  | OpTransferOwnership signer o => transfer_ownership c signer o
  | OpSend from to amt =>
    if negb (external from) then fail EUnsigned else
    if c_blocked c to && negb (external to) then fail EBlocked else
    if amt <=? 0 then fail EInvalidAmount else
    send_coins from to amt
  | OpMultiSend from outs =>
    if negb (external from) then fail EUnsigned else
    if bool_decide (outs = []) then fail EInvalidAmount else
    if existsb (fun ta : addr * Z => ta.2 <=? 0) outs then fail EInvalidAmount else
    if existsb (fun ta : addr * Z => c_blocked c ta.1 && negb (external ta.1)) outs then fail EBlocked else
    multi_send from outs
  | OpIbcSend o from chan receiver amt =>
    if negb (external from) then fail EUnsigned else
    if amt <=? 0 then fail EInvalidAmount else
    ibc_transfer c o chan from receiver amt
  | OpIbcSendOther ok p =>
    if is_usdn c p then fail EMalformed else ics4_send_packet c ok p
  | OpIbcRecv chan receiver amt => on_recv c chan receiver amt
  | OpIbcAck n a =>
    p <- take_packet n;;
    on_ack c p a;;;
    match a with
    | AckResult => modify (fun s => s <| st_world; x_acked ::= fun l => l ++ [p] |>)
    | _ => ret tt
    end
  | OpIbcTimeout n => p <- take_packet n;; on_timeout c p
  | OpChannelOpen chan => modify (fun s => s <| st_world; x_channels ::= union {[chan]} |>)
  | OpWarpSend o from tok domain rc amt =>
    if negb (external from) then fail EUnsigned else
    if amt <=? 0 then fail EInvalidAmount else
    col <- gets (fun s => x_tokens (st_world s) !! tok);;
    match col with
    | None => fail ENoToken
    | Some col => warp_transfer o tok col from domain rc amt
    end
  | OpWarpRecv tok to amt =>
    if amt <=? 0 then fail EInvalidAmount else
    col <- gets (fun s => x_tokens (st_world s) !! tok);;
    match col with
    | None => fail ENoToken
    | Some col =>
      if col <? amt then fail EInsufficientFunds else
      modify (fun s => s <| st_world; x_tokens ::= <[tok := col - amt]> |>);;;
      send_to_account c WarpA to amt
    end
  | OpWarpToken tok =>
    col <- gets (fun s => x_tokens (st_world s) !! tok);;
    match col with
    | Some _ => fail EDuplicate
    | None => modify (fun s => s <| st_world; x_tokens ::= <[tok := 0]> |>)
    end
  | OpWarpRouters tok ds => modify (fun s => s <| st_world; x_routers ::= <[tok := ds]> |>)
  end.

(** A transaction: the writes of a message are kept only if it succeeds (baseapp
    discards the cached store on an error and on a panic). *)
Definition step (c : config) (s : state) (o : op) : state :=
  match exec c o s with Ok s' _ => s' | _ => s end.
Definition succeeds (c : config) (s : state) (o : op) : bool :=
  match exec c o s with Ok _ _ => true | _ => false end.
Definition run (c : config) (s : state) (l : list op) : state := fold_left (step c) l s.
