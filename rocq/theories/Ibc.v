(** IBC middleware (ibc_middleware.go) around the ICS-20 transfer application. *)
From Verif Require Export Dollar.

(** ibc_middleware.go:64-87 AddAmountToRetry *)
Definition add_amount_to_retry (c : config) (p : packet) : M unit :=
  match pk_data p with
  | None => ret tt
  | Some d =>
    if negb (bool_decide (ft_denom d = c_denom c)) then ret tt else
    if negb (bool_decide (ft_sender d = c_enc c (AEscrow (pk_port p) (pk_chan p)))) then ret tt else
    match ft_amount d with
    | None => ret tt
    | Some amount => increment_retry IBC (pk_chan p) amount
    end
  end.

(** ibc-go transfer refundPacketToken, restricted to USDN: send the escrowed coins
    back to the sender. Packets of other denominations do not move USDN. *)
Definition refund (c : config) (p : packet) : M unit :=
  match pk_data p with
  | None => fail EMalformed
  | Some d =>
    match ft_amount d with
    | None => fail EMalformed
    | Some amount =>
      match c_dec c (ft_sender d) with
      | None => fail EDecode
      | Some a =>
        if bool_decide (ft_denom d = c_denom c)
        then amt <- new_coins amount;; send_coins (AEscrow (pk_port p) (pk_chan p)) a amt
        else ret tt
      end
    end
  end.

(** The acknowledgement bytes of a packet, as far as they are distinguished:
    [AckGarbage] are the bytes the transfer application rejects, whether they do not
    parse or parse to an acknowledgement that is neither a result nor an error. The
    middleware may have added a retry by then, but the rejected message is rolled
    back. *)
Inductive ack := AckResult | AckError | AckGarbage.

(** ibc_middleware.go:117-128 OnAcknowledgementPacket, with the transfer
    application's own callback: nothing on success, refund on error, an error on
    bytes that do not parse. *)
Definition on_ack (c : config) (p : packet) (a : ack) : M unit :=
  match a with
  | AckGarbage => fail EMalformed
  | AckError => add_amount_to_retry c p;;; refund c p
  | AckResult => ret tt
  end.

(** ibc_middleware.go:130-134 OnTimeoutPacket *)
Definition on_timeout (c : config) (p : packet) : M unit :=
  add_amount_to_retry c p;;; refund c p.

(** ibc_middleware.go:113-115 OnRecvPacket passes through to the transfer
    application; for returning USDN it unescrows the coins to the receiver. *)
Definition on_recv (c : config) (chan : string) (receiver : string) (amount : Z) : M unit :=
  match c_dec c receiver with
  | None => fail EDecode
  | Some a =>
    if c_blocked c a then fail EBlocked else
    amt <- new_coins amount;;
    send_coins (AEscrow transfer_port chan) a amt
  end.
