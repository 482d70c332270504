(** The dollar module proper: principal arithmetic, the bank with the module's
    send restriction, yield, issuance, redemption, index updates. *)
From Verif Require Export State.

(** * keeper/math.go *)

(** keeper/math.go:28-30 GetPrincipalAmountRoundedUp *)
Definition principal_up (amount index : Z) : pres Z :=
  a <~ int_mul amount e12; b <~ int_add a index; c <~ int_sub b 1; int_quo c index.
(** keeper/math.go:35-37 GetPrincipalAmountRoundedDown *)
Definition principal_down (amount index : Z) : pres Z :=
  a <~ int_mul amount e12; int_quo a index.
(** keeper/math.go:42-44 GetPresentAmount *)
Definition present_amount (principal index : Z) : pres Z :=
  a <~ int_mul principal index; int_quo a e12.

(** * keeper/state.go *)

(** keeper/keeper.go:210 etc. k.Index.Get *)
Definition get_index : M Z := gets current_index.
(** k.Principal.Get with ErrNotFound mapped to zero (keeper/keeper.go:219-226,
    252-259, 313-320; keeper/msg_server.go:239-242, 248-251) *)
Definition get_principal (a : addr) : M Z := gets (fun s => prin s a).
(** k.Principal.Set *)
Definition set_principal (a : addr) (z : Z) : M unit :=
  modify (fun s => s <| st_dollar; d_principal := <[a := z]> (d_principal (st_dollar s)) |>).
(** keeper/state.go:57-68 DecrementTotalHolders: saturates at zero *)
Definition decrement_total_holders : M unit :=
  modify (fun s => s <| st_dollar; d_stats; ds_holders ::=
    fun n => if 0 <? n then n - 1 else n |>).
(** keeper/state.go:71-80 IncrementTotalHolders: uint64 *)
Definition increment_total_holders : M unit :=
  modify (fun s => s <| st_dollar; d_stats; ds_holders ::= fun n => wrap_u64 (n + 1) |>).
(** keeper/state.go:83-90 GetTotalPrincipal *)
Definition get_total_principal : M Z := gets total_principal.
Definition set_total_principal (z : Z) : M unit :=
  modify (fun s => s <| st_dollar; d_stats; ds_principal := z |>).
(** keeper/state.go:93-105 DecrementTotalPrincipal *)
Definition decrement_total_principal (amount : Z) : M unit :=
  tp <- get_total_principal;; z <- lift (int_safe_sub tp amount);; set_total_principal z.
(** keeper/state.go:108-120 IncrementTotalPrincipal *)
Definition increment_total_principal (amount : Z) : M unit :=
  tp <- get_total_principal;; z <- lift (int_safe_add tp amount);; set_total_principal z.
(** keeper/state.go:123-135 IncrementTotalYieldAccrued *)
Definition increment_total_yield (amount : Z) : M unit :=
  y <- gets (fun s => ds_yield (d_stats (st_dollar s)));;
  z <- lift (int_safe_add y amount);;
  modify (fun s => s <| st_dollar; d_stats; ds_yield := z |>).
(** keeper/state.go:138-147 IncrementTotalExternalYield *)
Definition increment_ext_yield (provider : Z) (id : string) (amount : Z) : M unit :=
  y <- gets (fun s => default 0 (d_ext_yield (st_dollar s) !! (provider, id)));;
  z <- lift (int_add y amount);;
  modify (fun s => s <| st_dollar; d_ext_yield ::= <[(provider, id) := z]> |>).
(** keeper/state.go:178-193 GetYieldRecipientsByProvider followed by the sorting
    of its keys (keeper/msg_server.go:265-269, 328-332): identifiers in
    ascending order, each with its recipient. *)
Definition recipients_of (s : state) (provider : Z) : list (string * string) :=
  merge_sort skey_le
    (omap (fun kv => if decide (kv.1.1 = provider) then Some (kv.1.2, kv.2) else None)
      (map_to_list (d_recipients (st_dollar s)))).
(** keeper/state.go:196-201 HasYieldRecipient *)
Definition has_recipient (s : state) (provider : Z) (id : string) : bool :=
  bool_decide (is_Some (d_recipients (st_dollar s) !! (provider, id))).
(** keeper/state.go:216-224 GetRetryAmount *)
Definition get_retry (provider : Z) (id : string) : M Z :=
  gets (fun s => default 0 (d_retry (st_dollar s) !! (provider, id))).
(** keeper/state.go:227-239 GetRetryAmountAndRemove *)
Definition get_retry_and_remove (provider : Z) (id : string) : M Z :=
  r <- get_retry provider id;;
  whenb (0 <? r) (modify (fun s => s <| st_dollar; d_retry ::= delete (provider, id) |>));;;
  ret r.
(** keeper/state.go:242-248 IncrementRetryAmount *)
Definition increment_retry (provider : Z) (id : string) (amount : Z) : M unit :=
  r <- get_retry provider id;;
  z <- lift (int_add r amount);;
  modify (fun s => s <| st_dollar; d_retry ::= <[(provider, id) := z]> |>).

(** * The send restriction *)

(** keeper/keeper.go:188-292 SendRestrictionFn, for the USDN amount of the
    transferred coins. It runs after the sender was debited and before the
    recipient is credited. *)
Definition send_restriction (from to : addr) (amount : Z) : M unit :=
  if amount =? 0 then ret tt else
  if bool_decide (from = YieldA) then ret tt else
  if bool_decide (to = YieldA) then
    (if bool_decide (from = ModuleA) then ret tt else fail EToYield) else
  i <- get_index;;
  p <- lift (principal_up amount i);;
  (if bool_decide (from = ModuleA) then increment_total_principal p
   else
     fp <- get_principal from;;
     fp' <- lift (int_sub fp p);;
     set_principal from fp';;;
     b <- gets (fun s => bal s from);;
     whenb (b =? 0) decrement_total_holders);;;
  (if bool_decide (to = ModuleA) then decrement_total_principal p
   else
     p' <- (if bool_decide (from = ModuleA) then lift (principal_down amount i) else ret p);;
     tp <- get_principal to;;
     tp' <- lift (int_add tp p');;
     set_principal to tp';;;
     b <- gets (fun s => bal s to);;
     whenb (b =? 0) increment_total_holders).

(** * x/bank (cosmos-sdk v0.50), USDN only *)

(** sdk.NewCoins(sdk.NewCoin(denom, amount)): panics on a negative amount. The
    result is represented by the amount; 0 stands for the empty set of coins. *)
Definition new_coins (amount : Z) : M Z := if amount <? 0 then panic else ret amount.

Definition set_bal (a : addr) (z : Z) : M unit :=
  modify (fun s => s <| st_bank; bk_bal ::= <[a := z]> |>).
(** subUnlockedCoins (no vesting) *)
Definition sub_coins (a : addr) (amount : Z) : M unit :=
  b <- gets (fun s => bal s a);;
  if b <? amount then fail EInsufficientFunds else set_bal a (b - amount).
(** addCoins *)
Definition add_coins (a : addr) (amount : Z) : M unit :=
  b <- gets (fun s => bal s a);;
  b' <- lift (int_add b amount);;
  set_bal a b'.
(** SendCoins: debit, restriction, credit. Nothing happens for empty coins. *)
Definition send_coins (from to : addr) (amount : Z) : M unit :=
  if amount =? 0 then ret tt else
  sub_coins from amount;;;
  send_restriction from to amount;;;
  add_coins to amount;;;
  modify (fun s => s <| st_bank; bk_sends ::= Z.succ |>).
Fixpoint for_each {A} (f : A -> M unit) (l : list A) : M unit :=
  match l with
  | [] => ret tt
  | a :: l => f a;;; for_each f l
  end.

(** InputOutputCoins (MsgMultiSend): debit the total, then restriction and credit
    for each output. The sender's balance seen by the restriction is the one left
    after all outputs. *)
Definition multi_send (from : addr) (outs : list (addr * Z)) : M unit :=
  sub_coins from (foldr (fun ta acc => ta.2 + acc) 0 outs);;;
  for_each (fun ta : addr * Z =>
    send_restriction from ta.1 ta.2;;;
    add_coins ta.1 ta.2;;;
    modify (fun s => s <| st_bank; bk_sends ::= Z.succ |>)) outs.
(** SendCoinsFromModuleToAccount: refuses blocked recipients *)
Definition send_to_account (c : config) (from to : addr) (amount : Z) : M unit :=
  if c_blocked c to then fail EBlocked else send_coins from to amount.
(** MintCoins for the dollar module account; no restriction applies *)
Definition mint_coins (amount : Z) : M unit :=
  if amount =? 0 then ret tt else
  add_coins ModuleA amount;;;
  t <- gets supply;;
  t' <- lift (int_add t amount);;
  modify (fun s => s <| st_bank; bk_supply := t' |>).
(** BurnCoins for the dollar module account *)
Definition burn_coins (amount : Z) : M unit :=
  if amount =? 0 then ret tt else
  sub_coins ModuleA amount;;;
  modify (fun s => s <| st_bank; bk_supply ::= fun t => t - amount |>).

(** * Yield *)

(** keeper/keeper.go:313-336: the claimable yield of an account *)
Definition get_yield_of (a : addr) : M Z :=
  p <- get_principal a;;
  i <- get_index;;
  b <- gets (fun s => bal s a);;
  expected <- lift (present_amount p i);;
  ret (match int_safe_sub expected b with
       | POk y => if (y =? 1) || (y <? 0) then 0 else y
       | _ => 0
       end).
(** keeper/keeper.go:307-337 GetYield *)
Definition get_yield (c : config) (account : string) : M (Z * addr) :=
  match c_dec c account with
  | None => fail EDecode
  | Some a => y <- get_yield_of a;; ret (y, a)
  end.

(** keeper/msg_server.go:52-71 ClaimYield. Simplification: no event. *)
Definition claim_yield (c : config) (signer : string) : M unit :=
  paused <- gets (fun s => d_paused (st_dollar s));;
  if (paused : bool) then fail EPaused else
  ya <- get_yield c signer;;
  amt <- new_coins ya.1;;
  send_to_account c YieldA ya.2 amt.

(** keeper/msg_server.go:73-89 SetPausedState. Simplification: no event. *)
Definition set_paused (c : config) (signer : string) (paused : bool) : M unit :=
  if negb (bool_decide (signer = c_authority c)) then fail EAuthority else
  modify (fun s => s <| st_dollar; d_paused := paused |>).

(** keeper/msg_server.go:195-211 claimModuleYield. Simplification: the address
    is not rendered to a string and decoded again, so GetYield cannot fail. *)
Definition claim_module_yield (c : config) (a : addr) : M Z :=
  y <- get_yield_of a;;
  whenb (0 <? y) (amt <- new_coins y;; send_to_account c YieldA a amt);;;
  ret y.

(** keeper/msg_server.go:231-236: yieldPrincipal, the yield divided by the index
    as an 18-decimal fixed point number, truncated *)
Definition yield_principal (y rawIndex : Z) : pres Z :=
  i <~ dec_quo_int (dec_of_int rawIndex) e12;
  q <~ dec_quo (dec_of_int y) i;
  dec_truncate q.

(** keeper/msg_server.go:213-256 claimStakedVaultYield *)
Definition claim_staked_vault_yield (c : config) : M Z :=
  y <- get_yield_of StakedA;;
  if negb (0 <? y) then ret 0 else
  amt <- new_coins y;;
  send_to_account c YieldA FlexibleA amt;;;
  i <- get_index;;
  yp <- lift (yield_principal y i);;
  sp <- get_principal StakedA;;
  sp' <- lift (int_sub sp yp);;
  set_principal StakedA sp';;;
  fp <- get_principal FlexibleA;;
  fp' <- lift (int_add fp yp);;
  set_principal FlexibleA fp';;;
  ret y.

(** keeper/msg_server.go:432-466 handleVaultsYieldSeasonOne *)
Definition vaults_yield_season_one (c : config) (i : Z) : M unit :=
  fy <- claim_module_yield c FlexibleA;;
  sy <- claim_staked_vault_yield c;;
  total <- gets (fun s => v_total_flex (st_vaults s));;
  r <- lift (int_add sy fy);;
  modify (fun s => s <| st_vaults; v_rewards ::= <[i := mk_reward i total r]> |>).

(** keeper/msg_server.go:470-493 handleVaultsYieldSeasonTwo *)
Definition vaults_yield_season_two (c : config) : M unit :=
  y <- claim_module_yield c StakedA;;
  if negb (0 <? y) then ret tt else
  collector <- gets (fun s => v_collector (st_vaults s));;
  amt <- new_coins y;;
  send_coins StakedA collector amt.

(** * External yield *)

(** transfertypes.PortID *)
Definition transfer_port : string := "transfer".

(** isc4_wrapper.go:65-80 ICS4Wrapper.SendPacket. The underlying channel keeper
    is represented by [ok]: whether it accepts the packet. *)
Definition ics4_send_packet (c : config) (ok : bool) (p : packet) : M unit :=
  blocked <- gets (fun s =>
    match pk_data p with
    | Some d => bool_decide (ft_denom d = c_denom c) && negb (has_recipient s IBC (pk_chan p))
    | None => false
    end);;
  if (blocked : bool) then fail EDisabledChannel else
  if negb ok then fail EExternal else
  modify (fun s => s <| st_world; x_inflight ::= fun l => l ++ [p] |>).

(** ibc-go transfer keeper Transfer for the native token USDN: escrow the coins,
    then send the packet through the wrapper above. *)
Definition ibc_transfer (c : config) (o : outcome) (chan : string) (sender : addr)
    (receiver : string) (amount : Z) : M unit :=
  match o with
  | XReject => fail EExternal
  | _ =>
    send_coins sender (AEscrow transfer_port chan) amount;;;
    ics4_send_packet c (match o with XOk => true | _ => false end)
      (mk_packet transfer_port chan
        (Some (mk_ft (c_denom c) (Some amount) (c_enc c sender) receiver)))
  end.

(** keeper/msg_server.go:271-316 one iteration of claimExternalYieldIBC.
    Simplification: timeouts and logging omitted. *)
Definition claim_ibc_one (c : config) (x : oracle) (cr : string * string) : M unit :=
  let chan := cr.1 in
  let escrow := AEscrow transfer_port chan in
  y <- claim_module_yield c escrow;;
  r <- get_retry_and_remove IBC chan;;
  accrued <- lift (int_add y r);;
  if negb (0 <? accrued) then ret tt else
  sent <- try (ibc_transfer c (o_ibc x chan) chan escrow cr.2 accrued);;
  whenb (negb sent) (increment_retry IBC chan accrued);;;
  increment_ext_yield IBC chan y.

(** keeper/msg_server.go:258-319 claimExternalYieldIBC *)
Definition claim_external_ibc (c : config) (x : oracle) : M unit :=
  rs <- gets (fun s => recipients_of s IBC);;
  for_each (claim_ibc_one c x) rs.

(** hyperlane util.HexAddress.GetInternalId: the last 8 of 32 bytes *)
Definition internal_id (h : bytes) : Z := be_decode (drop 24 h).

(** keeper/msg_server_v2.go:94-114 getHyperlaneRouter: the only enrolled router *)
Definition get_router (tok : Z) : M Z :=
  rs <- gets (fun s => default [] (x_routers (st_world s) !! tok));;
  match rs with
  | [d] => ret d
  | _ => fail ERouters
  end.

(** hyperlane warp keeper RemoteTransferCollateral called with the token record
    read earlier (its id and collateral): collect the coins, write the token
    back with increased collateral, dispatch. *)
Definition warp_transfer (o : outcome) (tok collateral : Z) (sender : addr)
    (domain : Z) (recipient : bytes) (amount : Z) : M unit :=
  match o with
  | XReject => fail EExternal
  | _ =>
    send_coins sender WarpA amount;;;
    col' <- lift (int_add collateral amount);;
    modify (fun s => s <| st_world; x_tokens ::= <[tok := col']> |>);;;
    match o with
    | XOk => modify (fun s => s <| st_world; x_dispatched ::= fun l => l ++ [mk_hypmsg sender tok domain recipient amount] |>)
    | _ => fail EExternal
    end
  end.

(** A yield recipient with its token: identifier, recipient, token id, collateral *)
Record hyp_route := mk_route { hr_id : string; hr_recipient : string; hr_token : Z; hr_collateral : Z }.

(** keeper/msg_server.go:347-365 first loop of claimExternalYieldHyperlane:
    resolve the tokens and add up the collateral *)
Fixpoint collect_routes (c : config) (l : list (string * string)) (total : Z)
  : M (Z * list hyp_route) :=
  match l with
  | [] => ret (total, [])
  | (id, rc) :: l =>
    match c_hex c id with
    | None => fail EDecode
    | Some h =>
      let tok := internal_id h in
      col <- gets (fun s => x_tokens (st_world s) !! tok);;
      match col with
      | None => fail ENoToken
      | Some col =>
        total' <- lift (int_add total col);;
        tr <- collect_routes c l total';;
        ret (tr.1, mk_route id rc tok col :: tr.2)
      end
    end
  end.

(** keeper/msg_server.go:373-376 the portion of the yield of one route *)
Definition yield_portion (collateral total y : Z) : pres Z :=
  portion <~ dec_quo_int (dec_of_int collateral) total;
  m <~ dec_mul_int portion y;
  dec_truncate m.

(** keeper/msg_server.go:371-425 second loop body *)
Definition claim_hyp_one (c : config) (x : oracle) (total y : Z) (r : hyp_route) : M unit :=
  portion <- lift (yield_portion (hr_collateral r) total y);;
  retry <- get_retry_and_remove HYPERLANE (hr_id r);;
  accrued <- lift (int_add portion retry);;
  if negb (0 <? accrued) then ret tt else
  domain <- get_router (hr_token r);;
  match c_hex c (hr_recipient r) with
  | None => fail EDecode
  | Some rc =>
    sent <- try (warp_transfer (o_hyp x (hr_id r)) (hr_token r) (hr_collateral r) WarpA domain rc accrued);;
    whenb (negb sent) (increment_retry HYPERLANE (hr_id r) accrued);;;
    increment_ext_yield HYPERLANE (hr_id r) portion
  end.

(** keeper/msg_server.go:321-428 claimExternalYieldHyperlane *)
Definition claim_external_hyp (c : config) (x : oracle) : M unit :=
  rs <- gets (fun s => recipients_of s HYPERLANE);;
  y <- claim_module_yield c WarpA;;
  if negb (0 <? y) then ret tt else
  tr <- collect_routes c rs 0;;
  if negb (0 <? tr.1) then ret tt else
  for_each (claim_hyp_one c x tr.1 y) tr.2.

(** * Index updates, issuance, redemption *)

(** keeper/msg_server.go:138-163 set the index and mint the accrued yield *)
Definition accrue_yield (i : Z) : M unit :=
  modify (fun s => s <| st_dollar; d_index := i |>);;;
  tp <- get_total_principal;;
  current <- gets supply;;
  expected <- lift (present_amount tp i);;
  diff <- lift (int_sub expected current);;
  amt <- new_coins diff;;
  whenb (0 <? amt)
    (mint_coins amt;;;
     send_coins ModuleA YieldA amt;;;
     increment_total_yield amt).

(** keeper/msg_server.go:123-193 UpdateIndex. Simplification: no event. *)
Definition update_index (c : config) (x : oracle) (i : Z) : M unit :=
  old <- get_index;;
  if i <=? old then fail EDecreasingIndex else
  accrue_yield i;;;
  ended <- gets (fun s => v_ended (st_vaults s));;
  (if (ended : bool) then vaults_yield_season_two c else vaults_yield_season_one c i);;;
  claim_external_ibc c x;;;
  claim_external_hyp c x.

(** keeper/msg_server.go:105-121 Mint with an index: the error of UpdateIndex is
    ignored and its partial writes are kept. (Its only caller passes an index.) *)
Definition mint (c : config) (x : oracle) (to : addr) (amount i : Z) : M unit :=
  try (update_index c x i);;;
  amt <- new_coins amount;;
  mint_coins amt;;;
  send_to_account c ModuleA to amt.

(** keeper/msg_server.go:91-103 Burn *)
Definition burn (from : addr) (amount : Z) : M unit :=
  amt <- new_coins amount;;
  send_coins from ModuleA amt;;;
  burn_coins amt.

(** keeper/msg_server_v2.go:48-88 SetYieldRecipient. Simplification: no event. *)
Definition set_yield_recipient (c : config) (signer : string) (provider : Z)
    (id recipient : string) : M unit :=
  if negb (bool_decide (signer = c_authority c)) then fail EAuthority else
  (if provider =? IBC then
     found <- gets (fun s => bool_decide (id ∈ x_channels (st_world s)));;
     if (found : bool) then ret tt else fail ENoChannel
   else if provider =? HYPERLANE then
     match c_hex c id with
     | None => fail EDecode
     | Some h =>
       has <- gets (fun s => bool_decide (is_Some (x_tokens (st_world s) !! internal_id h)));;
       if negb has then fail ENoToken else
       get_router (internal_id h);;; ret tt
     end
   else ret tt);;;
  modify (fun s => s <| st_dollar; d_recipients ::= <[(provider, id) := recipient]> |>).
