(** The portal: keeper/keeper.go Deliver/HandlePayload, keeper/msg_server_portal.go,
    keeper/state_portal.go. *)
From Verif Require Export Dollar Codec.

(** [copy(buf[32-len(bs):], bs)] into 32 zero bytes; panics if [bs] is longer. *)
Definition pad32 (bs : bytes) : pres bytes :=
  if 32 <? blen bs then PPanic
  else POk (replicate (32 - length bs) Coq.Init.Byte.x00 ++ bs).
(** The same without the panic, for the two constants below. *)
Definition pad32' (bs : bytes) : bytes :=
  replicate (32 - length bs) Coq.Init.Byte.x00 ++ bs.
(** keeper/keeper.go:115-116 portal.PaddedManagerAddress (the address has 20 bytes) *)
Definition padded_manager (c : config) : bytes :=
  replicate 12 Coq.Init.Byte.x00 ++ c_raw c ManagerA.
(** keeper/keeper.go:119-120 portal.RawToken (the denom has at most 32 bytes) *)
Definition raw_token (c : config) : bytes := pad32' (bytes_of_string (c_denom c)).

(** wormhole ParseAndVerifyVAA: verified VAAs are accepted once *)
Definition parse_and_verify_vaa (c : config) (bz : bytes) : M vaa :=
  match c_vaa c bz with
  | None => fail EVaa
  | Some v =>
    seen <- gets (fun s => bool_decide (va_digest v ∈ x_vaas (st_world s)));;
    if (seen : bool) then fail EVaa else
    modify (fun s => s <| st_world; x_vaas ::= union {[va_digest v]} |>);;;
    ret v
  end.

(** keeper/keeper.go:407-459 HandlePayload. Simplification: no events. *)
Definition handle_payload (c : config) (x : oracle) (payload : slice) : M unit :=
  ty <- lift (get_payload_type payload);;
  match ty with
  | PTUnknown => ret tt
  | PTToken =>
    t <- lift (decode_token_payload payload);;
    if negb (c_chain c =? tk_chain t) then fail EWrongChain else
    if negb (bool_decide (raw_token c = sl_bytes (tk_token t))) then fail EWrongToken else
    mint c x (c_acct c (sl_bytes (tk_recipient t))) (tk_amount t) (tk_index t)
  | PTIndex =>
    id <- lift (decode_index_payload payload);;
    if negb (c_chain c =? id.2) then fail EWrongChain else
    update_index c x id.1
  end.

(** keeper/keeper.go:340-404 Deliver and keeper/msg_server_portal.go:48-56.
    Simplification: no events, no message id. *)
Definition deliver (c : config) (x : oracle) (bz : bytes) : M unit :=
  paused <- gets (fun s => p_paused (st_portal s));;
  if (paused : bool) then fail EPaused else
  v <- parse_and_verify_vaa c bz;;
  pr <- gets (fun s => p_peers (st_portal s) !! va_chain v);;
  match pr with
  | None => fail EInvalidPeer
  | Some pr =>
    if negb (bool_decide (pr_transceiver pr = va_emitter v)) then fail EInvalidPeer else
    t <- lift (parse_transceiver (va_payload v));;
    if negb (bool_decide (pr_manager pr = sl_bytes (tp_source t))) then fail EInvalidPeer else
    if negb (bool_decide (padded_manager c = sl_bytes (tp_recipient t))) then fail EInvalidMessage else
    m <- lift (parse_manager (tp_manager t));;
    handle_payload c x (mp_payload m)
  end.

(** keeper/state_portal.go:72-84 IncrementPortalNonce: uint32 *)
Definition increment_nonce : M Z :=
  n <- gets (fun s => p_nonce (st_portal s));;
  modify (fun s => s <| st_portal; p_nonce := wrap_u32 (n + 1) |>);;;
  ret n.

(** math.Int.Uint64: panics outside uint64 *)
Definition int_uint64 (z : Z) : pres Z :=
  if (0 <=? z) && (z <? 2 ^ 64) then POk z else PPanic.
(** math.Int.Int64: panics outside int64 *)
Definition int_int64 (z : Z) : pres Z :=
  if (- 2 ^ 63 <=? z) && (z <? 2 ^ 63) then POk z else PPanic.

(** keeper/msg_server_portal.go:58-174 Transfer. [post] is whether wormhole
    accepts the message. Simplification: of the events only the Int64 conversion
    (line 161). *)
Definition transfer (c : config) (post : bool) (signer : string) (chain : Z)
    (token recipient : bytes) (amount : option Z) : M unit :=
  paused <- gets (fun s => p_paused (st_portal s));;
  if (paused : bool) then fail EPaused else
  pr <- gets (fun s => p_peers (st_portal s) !! chain);;
  match pr with
  | None => fail EInvalidPeer
  | Some pr =>
  has <- gets (fun s => bool_decide (is_Some (p_paths (st_portal s) !! (chain, token))));;
  if negb has then fail EInvalidPath else
  if negb (blen recipient =? 32) then fail EInvalidRecipient else
  i <- get_index;;
  match amount with
  | None => panic
  | Some amount =>
  raw <- lift (int_uint64 amount);;
  let ntt := encode_ntt (mk_ntt raw (raw_token c) recipient chain (encode_additional i token)) in
  match c_dec c signer with
  | None => fail EDecode
  | Some a =>
  sender <- lift (pad32 (c_raw c a));;
  nonce <- increment_nonce;;
  id <- lift (pad32 (be_encode 4 nonce));;
  let mm := encode_manager (mk_mm id sender ntt) in
  let tm := encode_transceiver (mk_tm (padded_manager c) (pr_manager pr) mm []) in
  burn a amount;;;
  if negb post then fail EExternal else
  modify (fun s => s <| st_world; x_posted ::= fun l => l ++ [(tm, nonce)] |>);;;
  lift (int_int64 amount);;;
  ret tt
  end
  end
  end.

(** keeper/msg_server_portal.go:296-307 EnsureOwner *)
Definition ensure_owner (signer : string) : M unit :=
  owner <- gets (fun s => p_owner (st_portal s));;
  if bool_decide (owner = ""%string) then fail ENoOwner else
  if negb (bool_decide (signer = owner)) then fail ENotOwner else ret tt.

(** keeper/msg_server_portal.go:176-190 SetPausedState. Simplification: no event. *)
Definition portal_set_paused (signer : string) (paused : bool) : M unit :=
  ensure_owner signer;;;
  modify (fun s => s <| st_portal; p_paused := paused |>).

Definition empty32 : bytes := replicate 32 Coq.Init.Byte.x00.

(** keeper/msg_server_portal.go:192-237 SetPeer. Simplification: no event. *)
Definition set_peer (c : config) (signer : string) (chain : Z) (transceiver manager : bytes) : M unit :=
  ensure_owner signer;;;
  if chain =? 0 then fail EInvalidPeer else
  if chain =? c_chain c then fail EInvalidPeer else
  if negb (blen transceiver =? 32) then fail EInvalidPeer else
  if bool_decide (transceiver = empty32) then fail EInvalidPeer else
  if negb (blen manager =? 32) then fail EInvalidPeer else
  if bool_decide (manager = empty32) then fail EInvalidPeer else
  modify (fun s => s <| st_portal; p_peers ::= <[chain := mk_peer transceiver manager]> |>).

(** keeper/msg_server_portal.go:239-271 SetBridgingPath. Simplification: no event. *)
Definition set_bridging_path (c : config) (signer : string) (chain : Z) (token : bytes)
    (supported : bool) : M unit :=
  ensure_owner signer;;;
  if chain =? c_chain c then fail EInvalidPath else
  if negb (blen token =? 32) then fail EInvalidPath else
  if bool_decide (token = empty32) then fail EInvalidPath else
  modify (fun s => s <| st_portal; p_paths ::= <[(chain, token) := supported]> |>).

(** keeper/msg_server_portal.go:273-293 TransferOwnership. Simplification: no event. *)
Definition transfer_ownership (c : config) (signer newOwner : string) : M unit :=
  ensure_owner signer;;;
  match c_dec c newOwner with
  | None => fail EDecode
  | Some _ =>
    if bool_decide (newOwner = signer) then fail ESameOwner else
    modify (fun s => s <| st_portal; p_owner := newOwner |>)
  end.
