(** The vaults: keeper/msg_server_vaults.go, keeper/state_vaults.go. *)
From Verif Require Export Dollar.

(** * keeper/state_vaults.go *)

(** Positions with their key time, ascending: the iteration order of the
    ByProviderAndVault index. *)
Definition position_entries (s : state) (a : addr) (vault : Z) : list (Z * position) :=
  merge_sort zkey_le
    (omap (fun kv : (addr * Z * Z) * position =>
             if decide (kv.1.1 = (a, vault)) then Some (kv.1.2, kv.2) else None)
      (map_to_list (v_positions (st_vaults s)))).
(** keeper/state_vaults.go:143-165 GetVaultsPositionsByProviderAndVault. The
    entries' Address and Vault are the arguments. *)
Definition positions_of (s : state) (a : addr) (vault : Z) : list position :=
  (position_entries s a vault).*2.

Definition set_position (k : addr * Z * Z) (p : position) : M unit :=
  modify (fun s => s <| st_vaults; v_positions ::= <[k := p]> |>).
Definition remove_position (k : addr * Z * Z) : M unit :=
  modify (fun s => s <| st_vaults; v_positions ::= delete k |>).

(** keeper/state_vaults.go:199-213 IncrementVaultUsers: uint64 *)
Definition increment_vault_users (vault : Z) : M unit :=
  modify (fun s => s <| st_vaults; v_stats ::= fun t =>
    if vault =? STAKED then t <| vs_staked_users ::= fun n => wrap_u64 (n + 1) |>
    else if vault =? FLEXIBLE then t <| vs_flex_users ::= fun n => wrap_u64 (n + 1) |>
    else t |>).
(** keeper/state_vaults.go:216-230 DecrementVaultUsers: uint64, wraps around *)
Definition decrement_vault_users (vault : Z) : M unit :=
  modify (fun s => s <| st_vaults; v_stats ::= fun t =>
    if vault =? STAKED then t <| vs_staked_users ::= fun n => wrap_u64 (n - 1) |>
    else if vault =? FLEXIBLE then t <| vs_flex_users ::= fun n => wrap_u64 (n - 1) |>
    else t |>).
Definition vault_principal (s : state) (vault : Z) : Z :=
  if vault =? STAKED then vs_staked_principal (v_stats (st_vaults s))
  else if vault =? FLEXIBLE then vs_flex_principal (v_stats (st_vaults s)) else 0.
Definition set_vault_principal (vault z : Z) : M unit :=
  modify (fun s => s <| st_vaults; v_stats ::= fun t =>
    if vault =? STAKED then t <| vs_staked_principal := z |>
    else if vault =? FLEXIBLE then t <| vs_flex_principal := z |> else t |>).
(** keeper/state_vaults.go:233-247 IncrementVaultTotalPrincipal (only called for
    the two existing vaults) *)
Definition increment_vault_principal (vault amount : Z) : M unit :=
  p <- gets (fun s => vault_principal s vault);;
  z <- lift (int_add p amount);;
  set_vault_principal vault z.
(** keeper/state_vaults.go:250-264 DecrementVaultTotalPrincipal *)
Definition decrement_vault_principal (vault amount : Z) : M unit :=
  p <- gets (fun s => vault_principal s vault);;
  z <- lift (int_sub p amount);;
  set_vault_principal vault z.
(** keeper/state_vaults.go:267-282. Simplification: an unset (nil) statistic is 0. *)
Definition increment_distributed (amount : Z) : M unit :=
  d <- gets (fun s => vs_flex_distributed (v_stats (st_vaults s)));;
  z <- lift (int_add d amount);;
  modify (fun s => s <| st_vaults; v_stats; vs_flex_distributed := z |>).

(** * keeper/msg_server_vaults.go *)

(** VaultType_value: is the number a declared enum value other than UNSPECIFIED *)
Definition vault_exists (vault : Z) : bool := (vault =? STAKED) || (vault =? FLEXIBLE).

(** keeper/msg_server_vaults.go:438-446 ToUserVaultPositionModuleAccount, and the
    account of that name *)
Definition position_account_name (signer : string) (vault time : Z) : string :=
  if vault =? FLEXIBLE
  then "dollar/vaults/flexible/" +:+ string_lower signer +:+ "/" +:+ pretty time
  else "dollar/vaults/staked".
Definition position_account (signer : string) (vault time : Z) : addr :=
  AMod (position_account_name signer vault time).

(** keeper/msg_server_vaults.go:48-154 Lock. [amount] is [None] for an unset
    (nil) amount. Simplifications: no event, the account record of the position
    account is not modelled. *)
Definition lock (c : config) (signer : string) (vault : Z) (amount : option Z) : M unit :=
  ended <- gets (fun s => v_ended (st_vaults s));;
  if (vault =? FLEXIBLE) && ended then fail EPaused else
  paused <- gets (fun s => v_paused (st_vaults s));;
  if (paused =? PAUSE_ALL) || (paused =? PAUSE_LOCK) then fail EPaused else
  match c_dec c signer with
  | None => fail EDecode
  | Some a =>
  match amount with
  | None => panic
  | Some amount =>
  if amount <? c_min_lock c then fail EInvalidAmount else
  if negb (vault_exists vault) then fail EInvalidVault else
  now <- gets (fun s => x_now (st_world s));;
  let key := (a, vault, now) in
  has <- gets (fun s => bool_decide (is_Some (v_positions (st_vaults s) !! key)));;
  if (has : bool) then fail EDuplicate else
  b <- gets (fun s => bal s a);;
  if b <? amount then fail EInvalidAmount else
  amt <- new_coins amount;;
  send_coins a (position_account signer vault now) amt;;;
  i <- get_index;;
  p <- lift (principal_down amount i);;
  set_position key (mk_position p i amount now);;;
  (if vault =? FLEXIBLE then
     total <- gets (fun s => v_total_flex (st_vaults s));;
     total' <- lift (int_add total p);;
     modify (fun s => s <| st_vaults; v_total_flex := total' |>)
   else ret tt);;;
  n <- gets (fun s => length (positions_of s a vault));;
  whenb (Nat.eqb n 1) (increment_vault_users vault);;;
  increment_vault_principal vault p
  end
  end.

(** The reward records above an index, ascending: the range walked by ClaimRewards
    (keeper/msg_server_vaults.go:393-395) *)
Definition rewards_above (s : state) (i : Z) : list (Z * reward) :=
  merge_sort zkey_le
    (filter (fun kv : Z * reward => i < kv.1) (map_to_list (v_rewards (st_vaults s)))).

(** keeper/msg_server_vaults.go:404: rewards/total*amountPrincipal in 18-decimal
    fixed point, truncated *)
Definition user_reward (r : reward) (amountPrincipal : Z) : pres Z :=
  q <~ dec_quo (dec_of_int (rw_rewards r)) (dec_of_int (rw_total r));
  m <~ dec_mul_int q amountPrincipal;
  dec_truncate m.

(** keeper/msg_server_vaults.go:396-417 the walk; returns the accumulated rewards *)
Fixpoint walk_rewards (currentIndex amountPrincipal : Z) (l : list (Z * reward)) (acc : Z) : M Z :=
  match l with
  | [] => ret acc
  | (key, r) :: l =>
    if negb (0 <? rw_total r) || negb (0 <? rw_rewards r)
    then walk_rewards currentIndex amountPrincipal l acc
    else
      u <- (if negb (rw_index r =? currentIndex) && negb (rw_rewards r <? 0)
            then lift (user_reward r amountPrincipal) else ret 0);;
      total' <- lift (int_sub (rw_total r) amountPrincipal);;
      rewards' <- lift (int_sub (rw_rewards r) u);;
      modify (fun s => s <| st_vaults; v_rewards ::=
        <[key := mk_reward (rw_index r) total' rewards']> |>);;;
      acc' <- lift (int_add acc u);;
      walk_rewards currentIndex amountPrincipal l acc'
  end.

(** keeper/msg_server_vaults.go:363-436 ClaimRewards for the position [p] of
    account [a]. Simplification: no event; the account always encodes. *)
Definition claim_rewards (a : addr) (p : position) (amount : Z) : M Z :=
  vp <- get_principal FlexibleA;;
  if negb (0 <? vp) then ret 0 else
  currentIndex <- get_index;;
  ap <- lift (principal_down amount (pos_index p));;
  records <- gets (fun s => rewards_above s (pos_index p));;
  total <- walk_rewards currentIndex ap records 0;;
  amt <- new_coins total;;
  send_coins FlexibleA a amt;;;
  ret total.

(** keeper/msg_server_vaults.go:227-308 the loop over the positions; returns the
    amount left to remove and the principal removed. Simplification: no event. *)
Fixpoint unlock_loop (c : config) (signer : string) (a : addr) (vault : Z)
    (l : list position) (remaining removed : Z) : M (Z * Z) :=
  match l with
  | [] => ret (remaining, removed)
  | p :: l =>
    if remaining =? 0 then ret (remaining, removed) else
    let part := if remaining <? pos_amount p then remaining else pos_amount p in
    pp <- lift (principal_down part (pos_index p));;
    amountToSend <-
      (if vault =? FLEXIBLE then
         total <- gets (fun s => v_total_flex (st_vaults s));;
         total' <- lift (int_sub total pp);;
         modify (fun s => s <| st_vaults; v_total_flex := total' |>);;;
         rewards <- claim_rewards a p part;;
         increment_distributed rewards;;;
         y <- claim_module_yield c (position_account signer vault (pos_time p));;
         (if 0 <? y then lift (int_add part y) else ret part)
       else ret part);;
    amt <- new_coins amountToSend;;
    send_coins (position_account signer vault (pos_time p)) a amt;;;
    let key := (a, vault, pos_time p) in
    (if pos_amount p <=? part then remove_position key
     else
       p' <- lift (int_sub (pos_principal p) pp);;
       a' <- lift (int_sub (pos_amount p) part);;
       set_position key (mk_position p' (pos_index p) a' (pos_time p)));;;
    removed' <- lift (int_add removed pp);;
    remaining' <- lift (int_sub remaining part);;
    unlock_loop c signer a vault l remaining' removed'
  end.

Fixpoint sum_amounts (l : list position) (acc : Z) : pres Z :=
  match l with
  | [] => POk acc
  | p :: l => acc' <~ int_add acc (pos_amount p); sum_amounts l acc'
  end.

(** keeper/msg_server_vaults.go:167-339 unlock *)
Definition unlock_internal (c : config) (signer : string) (vault : Z) (amount : option Z) : M unit :=
  match c_dec c signer with
  | None => fail EDecode
  | Some a =>
  match amount with
  | None => fail EInvalidAmount
  | Some amount =>
  if negb (0 <? amount) then fail EInvalidAmount else
  if negb (vault_exists vault) then fail EInvalidVault else
  ps <- gets (fun s => positions_of s a vault);;
  total <- lift (sum_amounts ps 0);;
  if total <? amount then fail EInvalidAmount else
  if (amount <? c_min_unlock c) && negb (total =? amount) then fail EInvalidAmount else
  rr <- unlock_loop c signer a vault ps amount 0;;
  if negb (rr.1 =? 0) then fail EInvalidAmount else
  n <- gets (fun s => length (positions_of s a vault));;
  whenb (Nat.eqb n 0) (decrement_vault_users vault);;;
  decrement_vault_principal vault rr.2
  end
  end.

(** keeper/msg_server_vaults.go:156-165 Unlock *)
Definition unlock (c : config) (signer : string) (vault : Z) (amount : option Z) : M unit :=
  ended <- gets (fun s => v_ended (st_vaults s));;
  if (vault =? FLEXIBLE) && ended then fail EPaused else
  paused <- gets (fun s => v_paused (st_vaults s));;
  if (paused =? PAUSE_ALL) || (paused =? PAUSE_UNLOCK) then fail EPaused else
  unlock_internal c signer vault amount.

(** keeper/msg_server_vaults.go:341-361 SetPausedState; PausedType has the
    declared values 0..3. Simplification: no event. *)
Definition vaults_set_paused (c : config) (signer : string) (paused : Z) : M unit :=
  if negb (bool_decide (signer = c_authority c)) then fail EAuthority else
  if negb ((0 <=? paused) && (paused <=? 3)) then fail EInvalidPauseType else
  modify (fun s => s <| st_vaults; v_paused := paused |>).

(** Distinct owners of flexible positions (keeper/msg_server_vaults.go:459-480) *)
Definition flexible_owners (s : state) : list addr :=
  remove_dups (omap (fun kv : (addr * Z * Z) * position =>
    if decide (kv.1.1.2 = FLEXIBLE) then Some kv.1.1.1 else None)
    (map_to_list (v_positions (st_vaults s)))).

(** keeper/msg_server_vaults.go:450-501 endVaultsSeasonOne (no caller in the
    repository): unlock every user's whole flexible stake in the order of the
    encoded addresses, swallowing errors. Simplification: no logging. *)
Definition end_season_one (c : config) : M unit :=
  owners <- gets (fun s => merge_sort string_le (c_enc c <$> flexible_owners s));;
  amounts <- gets (fun s => (fun o => (o,
    match c_dec c o with
    | Some a => foldr Z.add 0 (pos_amount <$> positions_of s a FLEXIBLE)
    | None => 0
    end)) <$> owners);;
  for_each (fun ov => try (unlock_internal c ov.1 FLEXIBLE (Some ov.2));;; ret tt) amounts.
