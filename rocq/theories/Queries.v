(** The query servers. Simplification: a nil request is not modelled. *)
From Verif Require Export Vaults Portal Genesis.

(** keeper/query_server.go:42-55 Index: the index as an 18-decimal number *)
Definition q_index : M Z :=
  i <- get_index;; lift (dec_quo_int (dec_of_int i) e12).
(** keeper/query_server.go:57-65 Paused *)
Definition q_paused : M bool := gets (fun s => d_paused (st_dollar s)).
(** keeper/query_server.go:67-80 Principal *)
Definition q_principal (c : config) (account : string) : M Z :=
  match c_dec c account with
  | None => fail EDecode
  | Some a => get_principal a
  end.
(** keeper/query_server.go:82-90 Yield *)
Definition q_yield (c : config) (account : string) : M Z :=
  ya <- get_yield c account;; ret ya.1.
(** keeper/query_server.go:92-107 Stats *)
Definition q_stats : M dstats := gets (fun s => d_stats (st_dollar s)).

(** keeper/query_server_portal.go:42-104 *)
Definition q_owner : M string := gets (fun s => p_owner (st_portal s)).
Definition q_portal_paused : M bool := gets (fun s => p_paused (st_portal s)).
Definition q_peers : M (gmap Z peer) := gets (fun s => p_peers (st_portal s)).
(** keeper/query_server_portal.go:72-94 DestinationTokens: the request's uint32 is
    truncated to uint16 *)
Definition q_destination_tokens (chain : Z) : M (list bytes) :=
  gets (fun s => omap (fun kv : (Z * bytes) * bool =>
    if decide (kv.1.1 = wrap_u16 chain) then (if kv.2 then Some kv.1.2 else None) else None)
    (map_to_list (p_paths (st_portal s)))).
Definition q_nonce : M Z := gets (fun s => p_nonce (st_portal s)).

(** keeper/query_server_v2.go:51-136 *)
Definition q_yield_recipient (provider : Z) (id : string) : M string :=
  r <- gets (fun s => d_recipients (st_dollar s) !! (provider, id));;
  match r with Some r => ret r | None => fail ENotFound end.
Definition q_retry_amount (provider : Z) (id : string) : M Z := get_retry provider id.

(** keeper/query_server_vaults.go:74-94 PendingRewards *)
Fixpoint sum_rewards (l : list reward) (acc : Z) : pres Z :=
  match l with
  | [] => POk acc
  | r :: l => acc' <~ int_add acc (rw_rewards r); sum_rewards l acc'
  end.
Definition q_pending_rewards : M Z :=
  rs <- gets (fun s => (map_to_list (v_rewards (st_vaults s))).*2);;
  lift (sum_rewards rs 0).

(** keeper/query_server_vaults.go:124-146 the walk of one position *)
Fixpoint pending_walk (currentIndex amountPrincipal : Z) (l : list (Z * reward)) (acc : Z) : pres Z :=
  match l with
  | [] => POk acc
  | (_, r) :: l =>
    if negb (0 <? rw_total r) || negb (0 <? rw_rewards r)
    then pending_walk currentIndex amountPrincipal l acc
    else
      u <~ (if negb (rw_index r =? currentIndex) && negb (rw_rewards r <? 0)
            then user_reward r amountPrincipal else POk 0);
      acc' <~ int_add acc u;
      pending_walk currentIndex amountPrincipal l acc'
  end.
(** keeper/query_server_vaults.go:117-150 the loop over the positions: total, and
    amount and reward of each position. Simplification: the running total is added
    up per position instead of per record. *)
Fixpoint pending_loop (s : state) (l : list position) (total : Z) : pres (Z * list (Z * Z)) :=
  match l with
  | [] => POk (total, [])
  | p :: l =>
    ap <~ principal_down (pos_amount p) (pos_index p);
    r <~ pending_walk (current_index s) ap (rewards_above s (pos_index p)) 0;
    total' <~ int_add total r;
    rest <~ pending_loop s l total';
    POk (rest.1, (pos_amount p, r) :: rest.2)
  end.
(** keeper/query_server_vaults.go:96-156 PendingRewardsByProvider *)
Definition q_pending_rewards_by_provider (c : config) (provider : string) : M (Z * list (Z * Z)) :=
  match c_dec c provider with
  | None => fail EDecode
  | Some a => r <- gets (fun s => pending_loop s (positions_of s a FLEXIBLE) 0);; lift r
  end.

(** keeper/query_server_vaults.go:44-52 Paused *)
Definition q_vaults_paused : M Z := gets (fun s => v_paused (st_vaults s)).
(** keeper/query_server_vaults.go:54-72 PositionsByProvider, keeper/state_vaults.go:117-140
    GetVaultsPositionsByProvider: the positions of both vaults, each with its vault.
    Simplification: the order follows the map of the model. *)
Definition q_positions_by_provider (c : config) (provider : string) : M (list (Z * position)) :=
  match c_dec c provider with
  | None => fail EMalformed
  | Some a =>
    gets (fun s => omap (fun kp : (addr * Z * Z) * position =>
      if decide (kp.1.1.1 = a) then Some (kp.1.1.2, kp.2) else None)
      (map_to_list (v_positions (st_vaults s))))
  end.
(** keeper/query_server_vaults.go:158-175 Stats *)
Definition q_vaults_stats : M vstats := gets (fun s => v_stats (st_vaults s)).

(** keeper/state.go:149-163, 165-175, 203-213: walk a map and store its values under
    the formatted keys *)
Definition by_name {A} (m : gmap (Z * string) A) : gmap string A :=
  foldl (fun r kv => <[format_key kv.1 := kv.2]> r) ∅ (map_to_list m).
(** keeper/query_server_v2.go:94-102 YieldRecipients *)
Definition q_yield_recipients : M (gmap string string) := gets (fun s => by_name (d_recipients (st_dollar s))).
(** keeper/query_server_v2.go:118-126 RetryAmounts. Simplification: amounts are
    numbers, not decimal strings. *)
Definition q_retry_amounts : M (gmap string Z) := gets (fun s => by_name (d_retry (st_dollar s))).

(** keeper/query_server_v2.go:152-165 getHyperlaneChainId; strconv.Itoa is [pretty] *)
Definition hyperlane_chain_id (c : config) (s : state) (id : string) : string :=
  match c_hex c id with
  | None => "UNKNOWN"
  | Some h => match get_router (internal_id h) s with Ok _ d => pretty d | _ => "UNKNOWN" end
  end.
(** keeper/query_server_v2.go:66-84 the loop over the formatted keys. The light client
    lookup of an IBC channel (lines 138-150) is the parameter [ibc]; [None] is the
    panic of the key parser. *)
Fixpoint named_yields (c : config) (ibc : string -> string) (s : state) (l : list (string * Z)) : option (gmap string (string * Z)) :=
  match l with
  | [] => Some ∅
  | (key, v) :: l =>
    k ← parse_key key;
    m ← named_yields c ibc s l;
    let chain := if k.1 =? IBC then ibc k.2 else if k.1 =? HYPERLANE then hyperlane_chain_id c s k.2 else "UNKNOWN"%string in
    Some (<[key := (chain, v)]> m)
  end.
(** keeper/query_server_v2.go:51-92 Stats *)
Definition q_stats_v2 (c : config) (ibc : string -> string) : M (dstats * gmap string (string * Z)) :=
  d <- gets (fun s => d_stats (st_dollar s));;
  ys <- gets (fun s => named_yields c ibc s (map_to_list (by_name (d_ext_yield (st_dollar s)))));;
  ys <- opt ys;;
  ret (d, ys).
