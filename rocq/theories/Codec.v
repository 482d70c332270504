(** Wormhole NTT and M portal codecs: types/portal/ntt/*.go,
    types/portal/payload.go, types/portal/additional_payload.go. *)
From Verif Require Export Base.
Import Coq.Init.Byte.

(** types/portal/ntt/constants.go:29 NativeTokenTransferPrefix 0x994e5454 *)
Definition ntt_prefix : bytes := [x99; x4e; x54; x54].
(** types/portal/ntt/constants.go:33 TransceiverMessagePrefix 0x9945ff10 *)
Definition transceiver_prefix : bytes := [x99; x45; xff; x10].
(** types/portal/payload.go:42-43 M0IT = 0x4d304954 *)
Definition index_prefix : bytes := [x4d; x30; x49; x54].

(** [binary.BigEndian.UintN(s)] on a slice of exactly N bytes. *)
Definition sl_uint (s : slice) : Z := be_decode (sl_bytes s).
(** [len(s)] of a byte string as a Z. *)
Definition blen (bs : bytes) : Z := Z.of_nat (length bs).

(** * NativeTokenTransfer (types/portal/ntt/ntt.go) *)

Record ntt_transfer := mk_ntt {
  n_amount : Z;          (* uint64 *)
  n_source_token : bytes;
  n_to : bytes;
  n_to_chain : Z;        (* uint16 *)
  n_additional : bytes
}.
(** The same structure as seen by the parser: its fields are sub-slices of the
    input. *)
Record ntt_parsed := mk_nttp {
  np_amount : Z; np_source_token : slice; np_to : slice; np_to_chain : Z;
  np_additional : slice }.
(** NativeTokenTransfer{} *)
Definition ntt_zero : ntt_parsed := mk_nttp 0 sl_nil sl_nil 0 sl_nil.

(** types/portal/ntt/ntt.go:32-46 EncodeNativeTokenTransfer. *)
Definition encode_ntt (n : ntt_transfer) : bytes :=
  ntt_prefix ++ [byte_of_Z 6] ++ be_encode 8 (n_amount n) ++ n_source_token n
  ++ n_to n ++ be_encode 2 (n_to_chain n)
  ++ (if 0 <? blen (n_additional n)
      then be_encode 2 (wrap_u16 (blen (n_additional n))) ++ n_additional n
      else []).

(** types/portal/ntt/ntt.go:49-96 ParseNativeTokenTransfer. *)
Definition parse_ntt (bz : slice) : pres ntt_parsed :=
  if sl_len bz <? 79 then PErr EMalformed else
  prefix <~ of_slice (sl_sub bz 0 4);
  if negb (bool_decide (sl_bytes prefix = ntt_prefix)) then PErr EMalformed else
  amount <~ of_slice (sl_sub bz 5 13);
  source <~ of_slice (sl_sub bz 13 45);
  to <~ of_slice (sl_sub bz 45 77);
  chain <~ of_slice (sl_sub bz 77 79);
  if 79 <? sl_len bz then
    if sl_len bz <? 81 then PErr EMalformed else
    plen <~ of_slice (sl_sub bz 79 81);
    additional <~ of_slice (sl_from bz 81);
    if negb (sl_len additional =? sl_uint plen) then PErr EMalformed else
    POk (mk_nttp (sl_uint amount) source to (sl_uint chain) additional)
  else
    POk (mk_nttp (sl_uint amount) source to (sl_uint chain) sl_nil).

(** * ManagerMessage (types/portal/ntt/manager.go) *)

Record manager_msg := mk_mm { mm_id : bytes; mm_sender : bytes; mm_payload : bytes }.
Record manager_parsed := mk_mmp { mp_id : slice; mp_sender : slice; mp_payload : slice }.

(** types/portal/ntt/manager.go:31-39 EncodeManagerMessage *)
Definition encode_manager (m : manager_msg) : bytes :=
  mm_id m ++ mm_sender m ++ be_encode 2 (wrap_u16 (blen (mm_payload m))) ++ mm_payload m.

(** types/portal/ntt/manager.go:42-57 ParseManagerMessage *)
Definition parse_manager (bz : slice) : pres manager_parsed :=
  if sl_len bz <? 66 then PErr EMalformed else
  id <~ of_slice (sl_sub bz 0 32);
  sender <~ of_slice (sl_sub bz 32 64);
  plen <~ of_slice (sl_sub bz 64 66);
  payload <~ of_slice (sl_from bz 66);
  if negb (sl_len payload =? sl_uint plen) then PErr EMalformed else
  POk (mk_mmp id sender payload).

(** types/portal/ntt/manager.go:59-64: the bytes hashed by ManagerMessageDigest *)
Definition digest_preimage (chain : Z) (m : manager_msg) : bytes :=
  be_encode 2 chain ++ encode_manager m.

(** * TransceiverMessage (types/portal/ntt/transceiver.go) *)

Record transceiver_msg := mk_tm {
  tm_source : bytes; tm_recipient : bytes; tm_manager : bytes; tm_payload : bytes }.
Record transceiver_parsed := mk_tmp {
  tp_source : slice; tp_recipient : slice; tp_manager : slice; tp_payload : slice }.

(** types/portal/ntt/transceiver.go:31-43 EncodeTransceiverMessage *)
Definition encode_transceiver (m : transceiver_msg) : bytes :=
  transceiver_prefix ++ tm_source m ++ tm_recipient m
  ++ be_encode 2 (wrap_u16 (blen (tm_manager m))) ++ tm_manager m
  ++ be_encode 2 (wrap_u16 (blen (tm_payload m))) ++ tm_payload m.

(** types/portal/ntt/transceiver.go:46-75 ParseTransceiverMessage (no length check) *)
Definition parse_transceiver (bz : slice) : pres transceiver_parsed :=
  prefix <~ of_slice (sl_sub bz 0 4);
  if negb (bool_decide (sl_bytes prefix = transceiver_prefix)) then PErr EMalformed else
  source <~ of_slice (sl_sub bz 4 36);
  recipient <~ of_slice (sl_sub bz 36 68);
  mlen <~ of_slice (sl_sub bz 68 70);
  let o := 70 + sl_uint mlen in
  manager <~ of_slice (sl_sub bz 70 o);
  tlen <~ of_slice (sl_sub bz o (o + 2));
  payload <~ of_slice (sl_sub bz (o + 2) (o + 2 + sl_uint tlen));
  POk (mk_tmp source recipient manager payload).

(** * M portal payloads *)

(** types/portal/additional_payload.go:31-36 EncodeAdditionalPayload *)
Definition encode_additional (index : Z) (token : bytes) : bytes :=
  be_encode 8 (wrap_u64 index) ++ token.

(** types/portal/additional_payload.go:41-56 DecodeAdditionalPayload *)
Definition decode_additional (bz : slice) : pres (Z * slice) :=
  if sl_len bz <? 40 then PErr EMalformed else
  i <~ of_slice (sl_sub bz 0 8);
  token <~ of_slice (sl_sub bz 8 40);
  POk (wrap_i64 (sl_uint i), token).

(** types/portal/payload.go:34-40 PayloadType *)
Inductive payload_type := PTUnknown | PTToken | PTIndex.

(** types/portal/payload.go:49-62 GetPayloadType *)
Definition get_payload_type (payload : slice) : pres payload_type :=
  if sl_len payload <? 4 then POk PTUnknown else
  p <~ of_slice (sl_sub payload 0 4);
  if bool_decide (sl_bytes p = ntt_prefix) then POk PTToken
  else if bool_decide (sl_bytes p = index_prefix) then POk PTIndex
  else POk PTUnknown.

(** types/portal/payload.go:66-72 TokenPayload *)
Record token_payload := mk_tok {
  tk_amount : Z; tk_index : Z; tk_recipient : slice; tk_chain : Z; tk_token : slice }.

(** types/portal/payload.go:77-86 DecodeTokenPayload: both parse errors are
    ignored, leaving the zero values; [ntt.To[12:]] panics on the nil slice. *)
Definition decode_token_payload (payload : slice) : pres token_payload :=
  n <~ (match parse_ntt payload with
        | POk n => POk n | PErr _ => POk ntt_zero | PPanic => PPanic end);
  it <~ (match decode_additional (np_additional n) with
         | POk it => POk it | PErr _ => POk (0, sl_nil) | PPanic => PPanic end);
  recipient <~ of_slice (sl_from (np_to n) 12);
  POk (mk_tok (np_amount n) it.1 recipient (np_to_chain n) it.2).

(** types/portal/payload.go:91-96 DecodeIndexPayload (no length check) *)
Definition decode_index_payload (payload : slice) : pres (Z * Z) :=
  i <~ of_slice (sl_sub payload 4 12);
  d <~ of_slice (sl_sub payload 12 14);
  POk (wrap_i64 (sl_uint i), sl_uint d).

(** types/portal/payload.go:101-113 EncodeIndexPayload *)
Definition encode_index_payload (index destination : Z) : bytes :=
  index_prefix ++ be_encode 8 (wrap_u64 index) ++ be_encode 2 destination.
