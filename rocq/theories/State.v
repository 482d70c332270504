(** The state of the chain as far as the module sees it, the configuration of
    the keeper, and the monad the model is written in. *)
From Verif Require Export Base.

(** * Accounts

    An [sdk.AccAddress]. [AMod n] is [authtypes.NewModuleAddress(n)],
    [AEscrow p c] is [transfertypes.GetEscrowAddress(p, c)], everything else is
    [AUser]. Simplification: the constructors are disjoint and injective, i.e.
    the hashes these addresses are derived from do not collide. *)
Inductive addr :=
| AUser (b : bytes)
| AMod (name : string)
| AEscrow (port chan : string).

Global Instance addr_eq_dec : EqDecision addr.
Proof. solve_decision. Defined.
Global Instance addr_countable : Countable addr.
Proof.
  refine (inj_countable'
    (fun a => match a with
              | AUser b => inl b | AMod n => inr (inl n) | AEscrow p c => inr (inr (p, c)) end)
    (fun x => match x with
              | inl b => AUser b | inr (inl n) => AMod n | inr (inr (p, c)) => AEscrow p c end) _).
  by intros [].
Defined.

(** types/keys.go:29-35 ModuleName, ModuleAddress, YieldName, YieldAddress *)
Definition ModuleA : addr := AMod "dollar".
Definition YieldA : addr := AMod "dollar/yield".
(** types/vaults/keys.go:35-39 StakedVaultAddress, FlexibleVaultAddress *)
Definition StakedA : addr := AMod "dollar/vaults/staked".
Definition FlexibleA : addr := AMod "dollar/vaults/flexible".
(** hyperlane x/warp types.ModuleName is "warp" (keeper/msg_server.go:334) *)
Definition WarpA : addr := AMod "warp".
(** keeper/keeper.go:115 the portal manager account *)
Definition ManagerA : addr := AMod "dollar/portal/manager".

(** * Module state *)

(** types/v2 Stats *)
Record dstats := mk_dstats {
  ds_holders : Z;      (* uint64 TotalHolders *)
  ds_principal : Z;    (* math.Int TotalPrincipal *)
  ds_yield : Z         (* math.Int TotalYieldAccrued *)
}.
Global Instance eta_dstats : Settable dstats :=
  settable! mk_dstats <ds_holders; ds_principal; ds_yield>.

(** keeper/keeper.go:70-76; map keys (provider as int32, identifier) *)
Record dollar := mk_dollar {
  d_paused : bool;
  d_index : Z;                         (* int64 *)
  d_principal : gmap addr Z;
  d_stats : dstats;
  d_ext_yield : gmap (Z * string) Z;   (* TotalExternalYield *)
  d_recipients : gmap (Z * string) string;
  d_retry : gmap (Z * string) Z
}.
Global Instance eta_dollar : Settable dollar :=
  settable! mk_dollar <d_paused; d_index; d_principal; d_stats; d_ext_yield; d_recipients; d_retry>.

(** types/portal Peer *)
Record peer := mk_peer { pr_transceiver : bytes; pr_manager : bytes }.

(** keeper/keeper.go:78-82 *)
Record portal := mk_portal {
  p_owner : string;
  p_paused : bool;
  p_peers : gmap Z peer;               (* key uint16 *)
  p_paths : gmap (Z * bytes) bool;     (* PortalBridgingPaths, key (uint16, token) *)
  p_nonce : Z                          (* uint32 *)
}.
Global Instance eta_portal : Settable portal :=
  settable! mk_portal <p_owner; p_paused; p_peers; p_paths; p_nonce>.

(** types/vaults Position. Simplification: [Time] in whole seconds. *)
Record position := mk_position {
  pos_principal : Z; pos_index : Z; pos_amount : Z; pos_time : Z }.
Global Instance eta_position : Settable position :=
  settable! mk_position <pos_principal; pos_index; pos_amount; pos_time>.

(** types/vaults Reward *)
Record reward := mk_reward { rw_index : Z; rw_total : Z; rw_rewards : Z }.
Global Instance eta_reward : Settable reward :=
  settable! mk_reward <rw_index; rw_total; rw_rewards>.

(** types/vaults Stats *)
Record vstats := mk_vstats {
  vs_flex_principal : Z; vs_flex_users : Z; vs_flex_distributed : Z;
  vs_staked_principal : Z; vs_staked_users : Z }.
Global Instance eta_vstats : Settable vstats :=
  settable! mk_vstats <vs_flex_principal; vs_flex_users; vs_flex_distributed; vs_staked_principal; vs_staked_users>.

(** types/vaults enums *)
Definition UNSPECIFIED : Z := 0.
Definition STAKED : Z := 1.
Definition FLEXIBLE : Z := 2.
Definition PAUSE_NONE : Z := 0.
Definition PAUSE_LOCK : Z := 1.
Definition PAUSE_UNLOCK : Z := 2.
Definition PAUSE_ALL : Z := 3.
(** types/v2 Provider enum *)
Definition IBC : Z := 0.
Definition HYPERLANE : Z := 1.

(** keeper/keeper.go:84-90; positions keyed by (owner, vault, unix time) *)
Record vaults := mk_vaults {
  v_paused : Z;                        (* int32 *)
  v_ended : bool;                      (* VaultsSeasonOneEnded *)
  v_collector : addr;                  (* VaultsSeasonTwoYieldCollector *)
  v_positions : gmap (addr * Z * Z) position;
  v_total_flex : Z;                    (* VaultsTotalFlexiblePrincipal *)
  v_rewards : gmap Z reward;
  v_stats : vstats
}.
Global Instance eta_vaults : Settable vaults :=
  settable! mk_vaults <v_paused; v_ended; v_collector; v_positions; v_total_flex; v_rewards; v_stats>.

(** * The outside world *)

(** x/bank, restricted to the USDN denomination. [bk_sends] counts the bank
    transfers of a non-zero amount performed so far (the bank emits one
    [transfer] event for each); no modelled function reads it. Simplification:
    entries that became zero stay in the map. *)
Record bank := mk_bank {
  bk_bal : gmap addr Z;
  bk_supply : Z;
  bk_sends : Z
}.
Global Instance eta_bank : Settable bank := settable! mk_bank <bk_bal; bk_supply; bk_sends>.

(** ICS-20 FungibleTokenPacketData. [ft_amount] is the parsed value of the
    decimal string, [None] if it does not parse. *)
Record ftdata := mk_ft {
  ft_denom : string; ft_amount : option Z; ft_sender : string; ft_receiver : string }.
(** An IBC packet; [pk_data] is [None] if the data is not ICS-20 JSON. *)
Record packet := mk_packet { pk_port : string; pk_chan : string; pk_data : option ftdata }.

(** A hyperlane message dispatched by the warp module. *)
Record hypmsg := mk_hypmsg {
  hm_sender : addr; hm_token : Z; hm_domain : Z; hm_recipient : bytes; hm_amount : Z }.

Record world := mk_world {
  x_now : Z;                           (* block time, seconds *)
  x_vaas : gset bytes;                 (* digests of the VAAs already consumed *)
  x_posted : list (bytes * Z);         (* wormhole messages posted: payload, nonce *)
  x_channels : gset string;            (* open channels on port "transfer" *)
  x_inflight : list packet;            (* IBC packets sent and not yet settled *)
  x_acked : list packet;               (* IBC packets acknowledged with success *)
  x_tokens : gmap Z Z;                 (* hyperlane: collateral per internal token id *)
  x_routers : gmap Z (list Z);         (* hyperlane: receiver domains enrolled per token *)
  x_dispatched : list hypmsg           (* hyperlane messages dispatched *)
}.
Global Instance eta_world : Settable world :=
  settable! mk_world <x_now; x_vaas; x_posted; x_channels; x_inflight; x_acked; x_tokens; x_routers; x_dispatched>.

Record state := mk_state {
  st_bank : bank; st_dollar : dollar; st_portal : portal; st_vaults : vaults; st_world : world }.
Global Instance eta_state : Settable state :=
  settable! mk_state <st_bank; st_dollar; st_portal; st_vaults; st_world>.

(** What an observer sees. *)
Definition bal (s : state) (a : addr) : Z := default 0 (bk_bal (st_bank s) !! a).
Definition prin (s : state) (a : addr) : Z := default 0 (d_principal (st_dollar s) !! a).
Definition supply (s : state) : Z := bk_supply (st_bank s).
Definition current_index (s : state) : Z := d_index (st_dollar s).
Definition total_principal (s : state) : Z := ds_principal (d_stats (st_dollar s)).

(** * Configuration *)

(** A verified VAA: emitter chain and address, payload, signing digest. The
    payload is a slice because parts of it are re-sliced up to its capacity. *)
Record vaa := mk_vaa { va_chain : Z; va_emitter : bytes; va_payload : slice; va_digest : bytes }.

(** The keeper's parameters (keeper/keeper.go:93-110) and the pure functions of
    the modules it is wired to. *)
Record config := mk_config {
  c_denom : string;
  c_authority : string;
  c_min_lock : Z;
  c_min_unlock : Z;
  c_dec : string -> option addr;       (* address.Codec StringToBytes *)
  c_enc : addr -> string;              (* BytesToString, AccAddress.String *)
  c_raw : addr -> bytes;               (* the bytes of an address *)
  c_acct : bytes -> addr;              (* the account with these address bytes *)
  c_blocked : addr -> bool;            (* bank BlockedAddr *)
  c_chain : Z;                         (* wormhole GetChain, uint16 *)
  c_vaa : bytes -> option vaa;         (* wormhole VAA parsing and guardian verification *)
  c_hex : string -> option bytes;      (* hyperlane util.DecodeHexAddress (32 bytes) *)
  c_keccak : bytes -> bytes
}.

(** Outcome of the external transfers, chosen by the environment. *)
Inductive outcome :=
| XReject     (* refused before any coin moved *)
| XFail       (* failed after the coins were collected *)
| XOk.
(** One outcome per channel / hyperlane identifier. *)
Record oracle := mk_oracle { o_ibc : string -> outcome; o_hyp : string -> outcome }.

(** * Monad *)

Inductive res (A : Type) :=
| Ok (s : state) (a : A)
| Err (s : state) (e : err)    (* the state at the point of failure *)
| Panic.
Arguments Ok {A} _ _. Arguments Err {A} _ _. Arguments Panic {A}.

Definition M (A : Type) := state -> res A.
Definition ret {A} (a : A) : M A := fun s => Ok s a.
Definition bind {A B} (m : M A) (f : A -> M B) : M B := fun s =>
  match m s with
  | Ok s' a => f a s'
  | Err s' e => Err s' e
  | Panic => Panic
  end.
Notation "x <- m ;; k" := (bind m (fun x => k))
  (at level 100, m at next level, right associativity).
Notation "m ;;; k" := (bind m (fun _ => k)) (at level 100, right associativity).
Definition fail {A} (e : err) : M A := fun s => Err s e.
Definition panic {A} : M A := fun _ => Panic.
Definition gets {A} (f : state -> A) : M A := fun s => Ok s (f s).
Definition modify (f : state -> state) : M unit := fun s => Ok (f s) tt.
Definition lift {A} (p : pres A) : M A := fun s =>
  match p with POk a => Ok s a | PErr e => Err s e | PPanic => Panic end.
(** Run [m] and swallow an error, keeping the writes made before it. *)
Definition try {A} (m : M A) : M bool := fun s =>
  match m s with
  | Ok s' _ => Ok s' true
  | Err s' _ => Ok s' false
  | Panic => Panic
  end.
Definition require (b : bool) (e : err) : M unit := if b then ret tt else fail e.
Definition whenb (b : bool) (m : M unit) : M unit := if b then m else ret tt.
