(** Vocabulary of the property theorems, independent of the proofs. *)
From Verif Require Export System Genesis Queries.

(** One USDN index unit: an index of [10^12] is 1.0. *)
Definition unit_index : Z := 10 ^ 12.

(** Exact quotients, rounded down and up. *)
Definition floor_div (a b : Z) : Z := a / b.
Definition ceil_div (a b : Z) : Z := - ((- a) / b).

(** Sum of the values of a finite map. *)
Definition map_sum {K} `{Countable K} (m : gmap K Z) : Z := map_fold (fun _ v acc => v + acc) 0 m.
(** Sum of a function over a list. *)
Definition list_sum {A} (f : A -> Z) (l : list A) : Z := foldr (fun a acc => f a + acc) 0 l.

(** The contract of the chain's bech32 address codec. *)
Record codec_ok (c : config) : Prop := {
  codec_roundtrip : forall a, c_dec c (c_enc c a) = Some a;
  codec_canonical : forall t a, c_dec c t = Some a -> string_lower t = c_enc c a;
  codec_no_slash : forall a, ~ slash ∈ String.list_ascii_of_string (c_enc c a);
  codec_empty : c_dec c "" = None
}.

(** How the chain must be wired (simapp/app.yaml:32-34: the module account is
    blocked; the minimum lock is positive; module addresses have 20 bytes and
    the denom at most 32). *)
Record chain_ok (c : config) : Prop := {
  ok_codec : codec_ok c;
  ok_blocked : c_blocked c ModuleA = true;
  ok_min_lock : 1 <= c_min_lock c;
  ok_chain : 0 <= c_chain c < 2 ^ 16;
  ok_manager : blen (c_raw c ManagerA) = 20;
  ok_denom : blen (bytes_of_string (c_denom c)) <= 32
}.

(** A chain on which nothing has happened yet. Pause flags, owner, yield
    recipients, nonce, time and the wormhole archive are arbitrary. *)
Record fresh (c : config) (s : state) : Prop := {
  fresh_bank : st_bank s = mk_bank ∅ 0 0;
  fresh_index : 0 < current_index s < 2 ^ 63;
  fresh_principal : d_principal (st_dollar s) = ∅;
  fresh_stats : d_stats (st_dollar s) = mk_dstats 0 0 0;
  fresh_ext : d_ext_yield (st_dollar s) = ∅;
  fresh_retry : d_retry (st_dollar s) = ∅;
  fresh_peers : p_peers (st_portal s) = ∅;
  fresh_paths : p_paths (st_portal s) = ∅;
  fresh_nonce : 0 <= p_nonce (st_portal s) < 2 ^ 32;
  fresh_positions : v_positions (st_vaults s) = ∅;
  fresh_rewards : v_rewards (st_vaults s) = ∅;
  fresh_flex : v_total_flex (st_vaults s) = 0;
  fresh_vstats : v_stats (st_vaults s) = mk_vstats 0 0 0 0 0;
  fresh_collector : v_collector (st_vaults s) <> ModuleA /\ v_collector (st_vaults s) <> YieldA;
  fresh_posted : x_posted (st_world s) = [];
  fresh_inflight : x_inflight (st_world s) = [];
  fresh_acked : x_acked (st_world s) = [];
  fresh_tokens : x_tokens (st_world s) = ∅;
  fresh_dispatched : x_dispatched (st_world s) = []
}.

(** States reached by any sequence of messages, packets and environment events,
    whether they succeed, fail or panic. *)
Definition reachable (c : config) (s : state) : Prop :=
  exists s0 ops, fresh c s0 /\ s = run c s0 ops.

(** A message succeeds and leads to [s']. *)
Definition succeeds_with (c : config) (s : state) (o : op) (s' : state) : Prop :=
  exec c o s = Ok s' tt.
(** A message fails with an error or panics. *)
Definition rejected (c : config) (s : state) (o : op) : Prop :=
  match exec c o s with Ok _ _ => False | _ => True end.

(** The payload a VAA carries, and the fields of a token payload. *)
Definition carried (c : config) (bz : bytes) : option slice :=
  match c_vaa c bz with
  | Some v => match parse_transceiver (va_payload v) with
              | POk t => match parse_manager (tp_manager t) with POk m => Some (mp_payload m) | _ => None end
              | _ => None end
  | None => None
  end.
Definition carried_token (c : config) (bz : bytes) : option token_payload :=
  match carried c bz with
  | Some pl => match get_payload_type pl with
               | POk PTToken => match decode_token_payload pl with POk t => Some t | _ => None end
               | _ => None end
  | None => None
  end.
Definition carried_index (c : config) (bz : bytes) : option Z :=
  match carried c bz with
  | Some pl => match get_payload_type pl with
               | POk PTIndex => match decode_index_payload pl with POk (i, _) => Some i | _ => None end
               | _ => None end
  | None => None
  end.

(** Counting along a history. *)
Definition count_ops (f : state -> op -> Z) (c : config) : state -> list op -> Z :=
  fix go s l := match l with
                | [] => 0
                | o :: l => (if succeeds c s o then f s o else 0) + go (step c s o) l
                end.
Definition issuance (c : config) (s : state) (o : op) : Z :=
  match o with OpDeliver _ bz => if carried_token c bz then 1 else 0 | _ => 0 end.
Definition issued_amount (c : config) (s : state) (o : op) : Z :=
  match o with OpDeliver _ bz => match carried_token c bz with Some t => tk_amount t | None => 0 end | _ => 0 end.
Definition redeemed_amount (s : state) (o : op) : Z :=
  match o with OpTransfer _ _ _ _ _ (Some x) => x | _ => 0 end.
Definition net_issued (c : config) (s : state) (o : op) : Z := issued_amount c s o - redeemed_amount s o.

(** The account whose key authorises a message. *)
Definition signer_of (c : config) (o : op) : option addr :=
  match o with
  | OpClaimYield g | OpLock g _ _ | OpUnlock g _ _ | OpTransfer _ g _ _ _ _
  | OpSetPaused g _ | OpSetYieldRecipient g _ _ _ | OpVaultsSetPaused g _
  | OpPortalSetPaused g _ | OpSetPeer g _ _ _ | OpSetBridgingPath g _ _ _ | OpTransferOwnership g _ => c_dec c g
  | OpSend f _ _ | OpMultiSend f _ | OpIbcSend _ f _ _ _ | OpWarpSend _ f _ _ _ _ => Some f
  | _ => None
  end.

(** All the states of a history. *)
Fixpoint history (c : config) (s : state) (l : list op) : list state :=
  s :: match l with [] => [] | o :: l => history c (step c s o) l end.

(** A value representable as [math.Int]. *)
Definition int_range (z : Z) : Prop := Z.abs z < 2 ^ 256.
(** Accounts other than the issuance module and the yield account. *)
Definition ordinary_account (a : addr) : Prop := a <> ModuleA /\ a <> YieldA.
Definition on (b a : addr) (z : Z) : Z := if decide (b = a) then z else 0.

(** The effect of a transfer of [x] from [f] to [t]: balances and principal move,
    nothing else changes except the holders statistic and the transfer counter. *)
Record transferred (s s' : state) (f t : addr) (x : Z) : Prop := {
  tr_balance : forall a, bal s' a = bal s a - on a f x + on a t x;
  tr_principal : forall a, prin s' a = prin s a
      - on a f (ceil_div (x * unit_index) (current_index s)) + on a t (ceil_div (x * unit_index) (current_index s));
  tr_supply : supply s' = supply s;
  tr_total : total_principal s' = total_principal s;
  tr_index : current_index s' = current_index s;
  tr_accrued : ds_yield (d_stats (st_dollar s')) = ds_yield (d_stats (st_dollar s));
  tr_settings : d_paused (st_dollar s') = d_paused (st_dollar s) /\ d_recipients (st_dollar s') = d_recipients (st_dollar s);
  tr_external : d_ext_yield (st_dollar s') = d_ext_yield (st_dollar s) /\ d_retry (st_dollar s') = d_retry (st_dollar s);
  tr_portal : st_portal s' = st_portal s;
  tr_vaults : st_vaults s' = st_vaults s;
  tr_world : st_world s' = st_world s
}.
(** The amounts of a multi-send together, and those for [a], weighted by [w]. *)
Definition outputs_total (outs : list (addr * Z)) : Z := foldr (fun ta acc => ta.2 + acc) 0 outs.
Definition outputs_weight (w : Z -> Z) (outs : list (addr * Z)) : Z := foldr (fun ta acc => w ta.2 + acc) 0 outs.
Definition outputs_to (w : Z -> Z) (a : addr) (outs : list (addr * Z)) : Z := foldr (fun ta acc => on a ta.1 (w ta.2) + acc) 0 outs.
(** The effect of a multi-send: every output is a transfer from [f]. *)
Record paid_out (s s' : state) (f : addr) (outs : list (addr * Z)) : Prop := {
  di_balance : forall a, bal s' a = bal s a - on a f (outputs_total outs) + outputs_to (fun x => x) a outs;
  di_principal : forall a, prin s' a = prin s a
      - on a f (outputs_weight (fun x => ceil_div (x * unit_index) (current_index s)) outs)
      + outputs_to (fun x => ceil_div (x * unit_index) (current_index s)) a outs;
  di_supply : supply s' = supply s;
  di_total : total_principal s' = total_principal s;
  di_index : current_index s' = current_index s;
  di_accrued : ds_yield (d_stats (st_dollar s')) = ds_yield (d_stats (st_dollar s));
  di_portal : st_portal s' = st_portal s;
  di_vaults : st_vaults s' = st_vaults s;
  di_world : st_world s' = st_world s
}.
(** No integer of the transfer leaves the range of [math.Int]. *)
Record transfer_in_range (s : state) (f t : addr) (x : Z) : Prop := {
  tf_scaled : int_range (x * unit_index + current_index s);
  tf_from : int_range (prin s f - ceil_div (x * unit_index) (current_index s));
  tf_to : int_range (prin s t + ceil_div (x * unit_index) (current_index s));
  tf_self : int_range (prin s t);
  tf_balance : int_range (bal s t + x)
}.
(** The yield an account may claim (keeper.go:330: one unit of rounding is kept back). *)
Definition claimable (s : state) (a : addr) : Z :=
  let z := floor_div (prin s a * current_index s) unit_index - bal s a in
  if z <=? 1 then 0 else z.
(** The claimable yield of all accounts (those without principal can claim nothing). *)
Definition total_claimable (s : state) : Z :=
  map_fold (fun a _ acc => claimable s a + acc) 0 (d_principal (st_dollar s)).
(** The number of USDN transfers made so far by anyone, including issuance,
    redemption and yield payments. *)
Definition transfer_count (s : state) : Z := bk_sends (st_bank s).
(** The principal of the user accounts. *)
Definition user_principal (s : state) : Z :=
  map_fold (fun a z acc => (match a with AUser _ => z | _ => 0 end) + acc) 0 (d_principal (st_dollar s)).
(** The number of accounts, other than the module and yield accounts, with a non-zero balance. *)
Definition holder_count (s : state) : Z :=
  map_fold (fun a z acc => (if decide (a <> ModuleA /\ a <> YieldA /\ z <> 0) then 1 else 0) + acc) 0 (bk_bal (st_bank s)).
(** The accounts other than users' (and the module and yield accounts) that had no balance in [s] and have one in [s']. *)
Definition newly_funded (s s' : state) : Z :=
  map_fold (fun a z acc => (match a with AUser _ => 0 | _ => if decide (a <> ModuleA /\ a <> YieldA /\ bal s a = 0 /\ z <> 0) then 1 else 0 end) + acc)
    0 (bk_bal (st_bank s')).
(** A multi-send that spends all the sender has: the outputs after the first. *)
Definition spread (s : state) (o : op) : Z :=
  match o with
  | OpMultiSend from outs => if decide (bal s from = outputs_total outs) then Z.of_nat (length outs) - 1 else 0
  | _ => 0
  end.
(** What the holders statistic can miss: yield received by accounts without balance, by a
    claim and by the accounts of vaults, channels and hyperlane tokens in a delivery; and a
    sender that spends everything on several outputs, deducted once for each. *)
Definition uncounted (c : config) (s : state) (o : op) : Z :=
  match o with
  | OpClaimYield signer =>
    match c_dec c signer with Some a => if decide (bal s a = 0 /\ bal (step c s o) a <> 0) then 1 else 0 | None => 0 end
  | OpDeliver _ _ => newly_funded s (step c s o)
  | _ => spread s o
  end.
(** No account without balance has principal left, so that no yield accrues to an empty
    account; and while season one lasts the flexible vault, which receives the yield of
    the staked vault, is not empty unless the staked vault is. *)
Definition orderly (s : state) : Prop :=
  (forall a, ordinary_account a -> bal s a = 0 -> prin s a <= 0) /\
  (v_ended (st_vaults s) = true \/ bal s FlexibleA <> 0 \/ bal s StakedA = 0).
(** A history without its failed messages. *)
Fixpoint successful (c : config) (s : state) (l : list op) : list op :=
  match l with
  | [] => []
  | o :: l => if succeeds c s o then o :: successful c (step c s o) l else successful c s l
  end.

(** * Portal *)
(** The settings of the portal, without the message counter. *)
Definition portal_settings (s : state) : string * bool * gmap Z peer * gmap (Z * bytes) bool :=
  (p_owner (st_portal s), p_paused (st_portal s), p_peers (st_portal s), p_paths (st_portal s)).
(** The number of successful portal transfers of a history. *)
Definition transfers (c : config) : state -> list op -> Z :=
  count_ops (fun _ o => match o with OpTransfer _ _ _ _ _ _ => 1 | _ => 0 end) c.
(** The nonces of the posted messages. *)
Definition posted_nonces (s : state) : list Z := (x_posted (st_world s)).*2.
(** A 32-byte non-zero address. *)
Definition wide_address (b : bytes) : Prop := blen b = 32 /\ b <> replicate 32 Byte.x00.
(** Only the named part of the state differs. *)
Definition only_portal (s s' : state) (p : portal) : Prop :=
  s' = mk_state (st_bank s) (st_dollar s) p (st_vaults s) (st_world s).
Definition only_dollar (s s' : state) (d : dollar) : Prop :=
  s' = mk_state (st_bank s) d (st_portal s) (st_vaults s) (st_world s).
Definition only_vaults (s s' : state) (v : vaults) : Prop :=
  s' = mk_state (st_bank s) (st_dollar s) (st_portal s) v (st_world s).
Definition only_world (s s' : state) (w : world) : Prop :=
  s' = mk_state (st_bank s) (st_dollar s) (st_portal s) (st_vaults s) w.

(** [g] signs as the owner of the portal; an unset owner is nobody. *)
Definition is_owner (s : state) (g : string) : Prop := g = p_owner (st_portal s) /\ g <> ""%string.

(** The last [n] digits of [z] in base 256, the most significant first. *)
Definition digits (n : nat) (z : Z) : bytes := (fun k => byte_of_Z (z / 256 ^ Z.of_nat (n - 1 - k))) <$> seq 0 n.
(** The address of the manager and the denom, right-aligned in 32 bytes. *)
Definition manager_word (c : config) : bytes := replicate 12 Byte.x00 ++ c_raw c ManagerA.
Definition token_word (c : config) : bytes :=
  replicate (32 - length (bytes_of_string (c_denom c))) Byte.x00 ++ bytes_of_string (c_denom c).
(** The bytes of a token transfer with six decimals and of an index message. *)
Definition token_bytes (source recipient token : bytes) (amount index chain : Z) : bytes :=
  [Byte.x99; Byte.x4e; Byte.x54; Byte.x54; Byte.x06] ++ digits 8 amount ++ source ++ recipient ++ digits 2 chain ++
  digits 2 40 ++ digits 8 index ++ token.
Definition index_bytes (index chain : Z) : bytes :=
  [Byte.x4d; Byte.x30; Byte.x49; Byte.x54] ++ digits 8 index ++ digits 2 chain.
(** The bytes of a message with payload [payload] from the manager [from] to the manager [to]. *)
Definition wire (from to id sender payload extra : bytes) : bytes :=
  [Byte.x99; Byte.x45; Byte.xff; Byte.x10] ++ from ++ to ++ digits 2 (66 + blen payload) ++
  id ++ sender ++ digits 2 (blen payload) ++ payload ++ digits 2 (blen extra) ++ extra.
Definition token_wire (from to id sender extra source recipient token : bytes) (amount index chain : Z) : bytes :=
  wire from to id sender (token_bytes source recipient token amount index chain) extra.
Definition index_wire (from to id sender extra : bytes) (index chain : Z) : bytes :=
  wire from to id sender (index_bytes index chain) extra.
(** The declared sizes of the byte fields. *)
Definition wide (b : bytes) : Prop := blen b = 32.
(** A slice inside its backing array. *)
Definition slice_ok (s : slice) : Prop := 0 <= sl_len s <= sl_cap s.

(** Big-endian two-byte number at an offset. *)
Definition number_at (bs : bytes) (o : Z) : Z := be_decode (take 2 (drop (Z.to_nat o) bs)).
(** A token payload long enough for its fields, whose declared additional length is right. *)
Definition token_shaped (pl : bytes) : Prop :=
  take 4 pl = [Byte.x99; Byte.x4e; Byte.x54; Byte.x54] -> blen pl = 79 \/ 81 <= blen pl /\ blen pl = 81 + number_at pl 79.
(** An index payload long enough for its fields. *)
Definition index_shaped (pl : bytes) : Prop := take 4 pl = [Byte.x4d; Byte.x30; Byte.x49; Byte.x54] -> 14 <= blen pl.
(** A transceiver message long enough for its declared lengths, around a manager
    message whose payload is well shaped. *)
Definition well_shaped (bs : bytes) : Prop :=
  72 + number_at bs 68 <= blen bs /\
  72 + number_at bs 68 + number_at bs (70 + number_at bs 68) <= blen bs /\
  let pl := drop 66 (take (Z.to_nat (number_at bs 68)) (drop 70 bs)) in token_shaped pl /\ index_shaped pl.
(** What a payload decodes to. *)
Inductive decoded := DUnknown | DToken (t : token_payload) | DIndex (i chain : Z).
(** The decoding done by a delivery. *)
Definition decode_message (s : slice) : pres decoded :=
  t <~ parse_transceiver s;
  m <~ parse_manager (tp_manager t);
  ty <~ get_payload_type (mp_payload m);
  match ty with
  | PTUnknown => POk DUnknown
  | PTToken => k <~ decode_token_payload (mp_payload m); POk (DToken k)
  | PTIndex => k <~ decode_index_payload (mp_payload m); POk (DIndex k.1 k.2)
  end.
(** No integer of an issuance, or of a redemption, leaves the range of [math.Int]. *)
Record issue_in_range (s : state) (t : addr) (x : Z) : Prop := {
  if_scaled : int_range (x * unit_index + current_index s);
  if_supply : int_range (supply s + x);
  if_total : int_range (total_principal s + ceil_div (x * unit_index) (current_index s));
  if_principal : int_range (prin s t + floor_div (x * unit_index) (current_index s));
  if_balance : int_range (bal s t + x)
}.
Record redeem_in_range (s : state) (f : addr) (x : Z) : Prop := {
  rf_scaled : int_range (x * unit_index + current_index s);
  rf_total : int_range (total_principal s - ceil_div (x * unit_index) (current_index s));
  rf_principal : int_range (prin s f - ceil_div (x * unit_index) (current_index s))
}.

(** * Vaults *)
Definition positions (s : state) : gmap (addr * Z * Z) position := v_positions (st_vaults s).
(** The account holding a position of [a] opened at time [t]. *)
Definition vault_account (c : config) (vault : Z) (a : addr) (t : Z) : addr :=
  if vault =? FLEXIBLE then AMod ("dollar/vaults/flexible/" +:+ c_enc c a +:+ "/" +:+ pretty t) else StakedA.
(** Sum of a quantity over the positions satisfying a condition. *)
Definition position_sum (P : addr * Z * Z -> bool) (f : position -> Z) (s : state) : Z :=
  map_fold (fun k p acc => (if P k then f p else 0) + acc) 0 (positions s).
(** What one user, and everybody, has in a vault. *)
Definition stake (s : state) (a : addr) (vault : Z) : Z :=
  position_sum (fun k => bool_decide (k.1 = (a, vault))) pos_amount s.
Definition total_stake (s : state) (vault : Z) : Z :=
  position_sum (fun k => k.1.2 =? vault) pos_amount s.
Definition total_stake_principal (s : state) (vault : Z) : Z :=
  position_sum (fun k => k.1.2 =? vault) pos_principal s.
(** The users with a position in a vault. *)
Definition stakers (s : state) (vault : Z) : gset addr :=
  set_map (fun k : addr * Z * Z => k.1.1) (filter (fun k : addr * Z * Z => k.1.2 = vault) (dom (positions s))).
(** The statistics of a vault. *)
Definition vault_users (s : state) (vault : Z) : Z :=
  if vault =? STAKED then vs_staked_users (v_stats (st_vaults s)) else vs_flex_users (v_stats (st_vaults s)).
Definition vault_total (s : state) (vault : Z) : Z :=
  if vault =? STAKED then vs_staked_principal (v_stats (st_vaults s)) else vs_flex_principal (v_stats (st_vaults s)).
Definition a_vault (vault : Z) : Prop := vault = STAKED \/ vault = FLEXIBLE.
(** The vault is open for locking, for unlocking. *)
Definition lock_open (s : state) (vault : Z) : Prop :=
  v_paused (st_vaults s) <> PAUSE_ALL /\ v_paused (st_vaults s) <> PAUSE_LOCK /\ (vault = FLEXIBLE -> v_ended (st_vaults s) = false).
Definition unlock_open (s : state) (vault : Z) : Prop :=
  v_paused (st_vaults s) <> PAUSE_ALL /\ v_paused (st_vaults s) <> PAUSE_UNLOCK /\ (vault = FLEXIBLE -> v_ended (st_vaults s) = false).
(** No integer of a lock leaves the range of [math.Int]. *)
Record lock_in_range (c : config) (s : state) (a : addr) (vault x : Z) : Prop := {
  lf_transfer : transfer_in_range s a (vault_account c vault a (x_now (st_world s))) x;
  lf_flex : int_range (v_total_flex (st_vaults s) + floor_div (x * unit_index) (current_index s));
  lf_total : int_range (vault_total s vault + floor_div (x * unit_index) (current_index s))
}.
(** Oldest first: positions before a time are closed, later ones untouched, and
    the one at that time is reduced or closed. *)
Definition oldest_first (s s' : state) (a : addr) (vault : Z) : Prop :=
  exists t0,
    (forall t, t < t0 -> positions s' !! (a, vault, t) = None) /\
    (forall t, t0 < t -> positions s' !! (a, vault, t) = positions s !! (a, vault, t)) /\
    exists p, positions s !! (a, vault, t0) = Some p /\
      (positions s' !! (a, vault, t0) = None \/
       exists z, 0 < z < pos_amount p /\
         positions s' !! (a, vault, t0) =
           Some (mk_position (pos_principal p - floor_div (z * unit_index) (pos_index p)) (pos_index p) (pos_amount p - z) (pos_time p))).
(** The amount recorded at a position's key, 0 if there is none. *)
Definition amount_at (s : state) (k : addr * Z * Z) : Z :=
  match positions s !! k with Some p => pos_amount p | None => 0 end.
(** Every stake is covered by the account holding it. *)
Record stakes_backed (c : config) (s : state) : Prop := {
  sb_staked : total_stake s STAKED <= bal s StakedA;
  sb_flexible : forall a t p, positions s !! (a, FLEXIBLE, t) = Some p -> pos_amount p <= bal s (vault_account c FLEXIBLE a t)
}.
(** Counts the successful unlocks of one vault along a history. *)
Definition unlocks (vault : Z) (s : state) (o : op) : Z :=
  match o with OpUnlock _ w _ => if w =? vault then 1 else 0 | _ => 0 end.
(** Amounts a withdrawal of staked funds works with stay far inside [math.Int]. *)
Record withdrawal_in_range (s : state) (a : addr) : Prop := {
  wr_stake : stake s a STAKED * unit_index < 2 ^ 200;
  wr_user : Z.abs (prin s a) < 2 ^ 255;
  wr_pool : Z.abs (prin s StakedA) < 2 ^ 255;
  wr_balance : bal s a < 2 ^ 255;
  wr_total : vault_total s STAKED < 2 ^ 255
}.

(** * Rewards of the flexible vault *)
Definition rewards (s : state) : gmap Z reward := v_rewards (st_vaults s).
(** What the record of an index still holds. *)
Definition remaining_at (s : state) (i : Z) : Z := match rewards s !! i with Some r => rw_rewards r | None => 0 end.
Definition remaining_rewards (s : state) : Z := map_fold (fun _ r acc => rw_rewards r + acc) 0 (rewards s).
(** What the records existing in [s] have lost in [s']. *)
Definition records_paid (s s' : state) : Z := map_fold (fun i r acc => (rw_rewards r - remaining_at s' i) + acc) 0 (rewards s).
Definition distributed (s : state) : Z := vs_flex_distributed (v_stats (st_vaults s)).
(** Flexible principal totals within the precision of the 18-decimal quotients. *)
Definition flexible_small (s : state) : Prop := v_total_flex (st_vaults s) <= 10 ^ 18.

(** * Payout of the flexible vault *)
(** A number of 10^-18ths rounded to the nearest integer, ties to even. *)
Definition nearest (z : Z) : Z :=
  let q := z / 10 ^ 18 in let r := z mod 10 ^ 18 in
  if 2 * r <? 10 ^ 18 then q else if 10 ^ 18 <? 2 * r then q + 1 else if Z.even q then q else q + 1.
(** The share of a record due to the principal [ap]: the record's rewards per unit of
    its total, to the nearest 10^-18th, times [ap], rounded down. *)
Definition reward_share (r : reward) (ap : Z) : Z :=
  nearest (rw_rewards r * 10 ^ 36 / rw_total r) * ap / 10 ^ 18.
Definition open_record (r : reward) : bool := (0 <? rw_total r) && (0 <? rw_rewards r).
(** What a record pays at index [ci], and what is left of it. *)
Definition record_pays (ci ap : Z) (r : reward) : Z :=
  if open_record r && negb (rw_index r =? ci) then reward_share r ap else 0.
Definition record_left (ci ap : Z) (r : reward) : reward :=
  if open_record r then mk_reward (rw_index r) (rw_total r - ap) (rw_rewards r - record_pays ci ap r) else r.
(** The same for all records above the index [e]. *)
Definition records_due (ci e ap : Z) (m : gmap Z reward) : Z :=
  map_fold (fun k r acc => (if e <? k then record_pays ci ap r else 0) + acc) 0 m.
Definition records_left (ci e ap : Z) (m : gmap Z reward) : gmap Z reward :=
  map_imap (fun k r => Some (if e <? k then record_left ci ap r else r)) m.
(** A payout while it is computed: the records, the principal of the vault's account and
    of the user; the stake, rewards, yield and stake principal paid so far. *)
Record payout := mk_payout {
  po_records : gmap Z reward; po_vault : Z; po_user : Z;
  po_stake : Z; po_rewards : Z; po_yield : Z; po_principal : Z
}.
Definition payout_start (s : state) (a : addr) : payout := mk_payout (rewards s) (prin s FlexibleA) (prin s a) 0 0 0 0.
(** The part withdrawn of the position of time [t], the principal that moves with it. *)
Definition part_taken (s s' : state) (a : addr) (t : Z) : Z := amount_at s (a, FLEXIBLE, t) - amount_at s' (a, FLEXIBLE, t).
Definition principal_of (s : state) (z : Z) : Z := ceil_div (z * unit_index) (current_index s).
Definition part_yield (c : config) (s : state) (a : addr) (t : Z) : Z := claimable s (vault_account c FLEXIBLE a t).
(** Paying the part of one position. Records are settled only while the vault's account has principal. *)
Definition pay_part (c : config) (s s' : state) (a : addr) (q : payout) (t : Z) : payout :=
  match positions s !! (a, FLEXIBLE, t) with
  | None => q
  | Some p =>
    let x := part_taken s s' a t in
    let y := part_yield c s a t in
    let ap := floor_div (x * unit_index) (pos_index p) in
    let ci := current_index s in
    let settles := 0 <? po_vault q in
    let r := if settles then records_due ci (pos_index p) ap (po_records q) else 0 in
    mk_payout (if settles then records_left ci (pos_index p) ap (po_records q) else po_records q)
      (po_vault q - principal_of s r) (po_user q + principal_of s r + principal_of s (x + y))
      (po_stake q + x) (po_rewards q + r) (po_yield q + y) (po_principal q + ap)
  end.
(** The times of the positions a withdrawal touches, oldest first. *)
Definition touches (s s' : state) (a : addr) (ts : list Z) : Prop :=
  StronglySorted Z.lt ts /\ forall t, t ∈ ts <-> 0 < part_taken s s' a t.

(** The yield waiting on the accounts of a user's flexible positions. *)
Definition waiting_yield (c : config) (s : state) (a : addr) : Z :=
  position_sum (fun k => bool_decide (k.1 = (a, FLEXIBLE))) (fun p => claimable s (vault_account c FLEXIBLE a (pos_time p))) s.
(** Amounts a withdrawal of flexible funds works with stay far inside [math.Int]. *)
Record flexible_in_range (s : state) : Prop := {
  fr_supply : supply s < 2 ^ 140;
  fr_principal : forall x, Z.abs (prin s x) < 2 ^ 189;
  fr_distributed : Z.abs (distributed s) < 2 ^ 254
}.

(** * Yield of external chains *)
Definition retry_of (s : state) (provider : Z) (id : string) : Z := default 0 (d_retry (st_dollar s) !! (provider, id)).
Definition external_of (s : state) (provider : Z) (id : string) : Z := default 0 (d_ext_yield (st_dollar s) !! (provider, id)).
(** The yield of channel [ch] that a packet carries: USDN sent by the channel's
    escrow account itself. *)
Definition yield_carried (c : config) (ch : string) (p : packet) : Z :=
  match pk_data p with
  | Some d =>
    if bool_decide (pk_port p = transfer_port) && bool_decide (pk_chan p = ch) &&
       bool_decide (ft_denom d = c_denom c) && bool_decide (ft_sender d = c_enc c (AEscrow transfer_port ch))
    then default 0 (ft_amount d) else 0
  | None => 0
  end.
(** Yield sent over a channel that did not fail. *)
Definition yield_sent (c : config) (s : state) (ch : string) : Z :=
  list_sum (yield_carried c ch) (x_inflight (st_world s)) + list_sum (yield_carried c ch) (x_acked (st_world s)).
(** Identifiers of hyperlane routes, and the token they name. *)
Definition names_token (c : config) (tok : Z) (k : Z * string) : bool :=
  bool_decide (k.1 = HYPERLANE) && match c_hex c k.2 with Some h => be_decode (drop 24 h) =? tok | None => false end.
Definition over_routes (c : config) (tok : Z) (m : gmap (Z * string) Z) : Z :=
  map_fold (fun k v acc => (if names_token c tok k then v else 0) + acc) 0 m.
(** Per token: external yield recorded, waiting to be retried, dispatched. *)
Definition hyp_external (c : config) (s : state) (tok : Z) : Z := over_routes c tok (d_ext_yield (st_dollar s)).
Definition hyp_retry (c : config) (s : state) (tok : Z) : Z := over_routes c tok (d_retry (st_dollar s)).
Definition hyp_dispatched (s : state) (tok : Z) : Z :=
  list_sum (fun m => if bool_decide (hm_sender m = WarpA) && (hm_token m =? tok) then hm_amount m else 0) (x_dispatched (st_world s)).
(** Every hyperlane route has exactly one router and a recipient that decodes. *)
Definition routes_ready (c : config) (s : state) : Prop :=
  forall id rc, d_recipients (st_dollar s) !! (HYPERLANE, id) = Some rc ->
  exists h d, c_hex c id = Some h /\ x_routers (st_world s) !! be_decode (drop 24 h) = Some [d] /\ is_Some (c_hex c rc).
(** The collateral of the token a hyperlane route names, and that of all routes. *)
Definition collateral_of (c : config) (s : state) (id : string) : Z :=
  match c_hex c id with Some h => default 0 (x_tokens (st_world s) !! be_decode (drop 24 h)) | None => 0 end.
Definition sum_routes (s : state) (f : string -> Z) : Z :=
  map_fold (fun k _ acc => (if decide (k.1 = HYPERLANE) then f k.2 else 0) + acc) 0 (d_recipients (st_dollar s)).
(** The yield the warp account may claim once the index is [i]. *)
Definition warp_yield (s : state) (i : Z) : Z :=
  let z := floor_div (prin s WarpA * i) unit_index - bal s WarpA in if z <=? 1 then 0 else z.
(** The share of a route of [y]: proportional to its collateral, the ratio
    rounded down to 18 decimals and the product rounded down. *)
Definition route_share (c : config) (s : state) (y : Z) (id : string) : Z :=
  let total := sum_routes s (collateral_of c s) in
  if total <=? 0 then 0 else collateral_of c s id * 10 ^ 18 / total * y / 10 ^ 18.

(** * Index updates *)
(** The yield an account may claim once the index is [i]. *)
Definition claim_at (s : state) (i : Z) (a : addr) : Z :=
  let z := floor_div (prin s a * i) unit_index - bal s a in if z <=? 1 then 0 else z.
(** An account no yield is paid to for another chain. *)
Definition bystander (a : addr) : Prop := a <> YieldA /\ a <> WarpA /\ forall ch, a <> AEscrow transfer_port ch.
(** Sum over the channels with a yield recipient. *)
Definition sum_channels (s : state) (f : string -> Z) : Z :=
  map_fold (fun k _ acc => (if decide (k.1 = IBC) then f k.2 else 0) + acc) 0 (d_recipients (st_dollar s)).
(** What an update to index [i] claims for the vaults, the channels and the warp account. *)
Definition index_claims (s : state) (i : Z) : Z :=
  (if v_ended (st_vaults s) then 0 else claim_at s i FlexibleA) + claim_at s i StakedA +
  sum_channels s (fun ch => claim_at s i (AEscrow transfer_port ch)) + claim_at s i WarpA.
(** Every hyperlane route names an existing token with exactly one router and has
    a recipient that decodes. *)
Definition routes_usable (c : config) (s : state) : Prop :=
  forall id rc, d_recipients (st_dollar s) !! (HYPERLANE, id) = Some rc ->
  exists h d, c_hex c id = Some h /\ is_Some (x_tokens (st_world s) !! be_decode (drop 24 h)) /\
    x_routers (st_world s) !! be_decode (drop 24 h) = Some [d] /\ is_Some (c_hex c rc).
(** An index message for this chain from the registered peer, not seen before, that
    raises the index. *)
Definition index_message (c : config) (s : state) (bz : bytes) (index : Z) : Prop :=
  exists v pr id sender extra, c_vaa c bz = Some v /\ va_digest v ∉ x_vaas (st_world s) /\ slice_ok (va_payload v) /\
    p_peers (st_portal s) !! va_chain v = Some pr /\ va_emitter v = pr_transceiver pr /\
    sl_bytes (va_payload v) = index_wire (pr_manager pr) (manager_word c) id sender extra index (c_chain c) /\
    wide id /\ wide sender /\ blen extra < 65536 /\ current_index s < index < 2 ^ 63.
(** The accounts whose yield an index update claims are not blocked. *)
Definition claims_unblocked (c : config) : Prop :=
  c_blocked c FlexibleA = false /\ c_blocked c StakedA = false /\ c_blocked c WarpA = false /\
  forall ch, c_blocked c (AEscrow transfer_port ch) = false.
(** Quantities of an index update far inside the range of [math.Int]. *)
Record update_in_range (c : config) (s : state) : Prop := {
  ur_total : total_principal s < 2 ^ 150;
  ur_principal : forall a, Z.abs (prin s a) < 2 ^ 150;
  ur_accrued : Z.abs (ds_yield (d_stats (st_dollar s))) < 2 ^ 250;
  ur_retry : forall k, default 0 (d_retry (st_dollar s) !! k) < 2 ^ 180;
  ur_external : forall k, Z.abs (default 0 (d_ext_yield (st_dollar s) !! k)) < 2 ^ 250;
  ur_collateral : sum_routes s (collateral_of c s) < 2 ^ 180
}.

(** * Everything an index update changes *)
Global Instance outcome_eq_dec : EqDecision outcome.
Proof. solve_decision. Defined.
(** The identifiers with a yield recipient for provider [p], in ascending order. *)
Definition identifiers (s : state) (p : Z) (l : list string) : Prop :=
  StronglySorted string_le l /\ NoDup l /\ forall id, id ∈ l <-> is_Some (d_recipients (st_dollar s) !! (p, id)).
(** What is minted by the update. *)
Definition index_minted (s : state) (i : Z) : Z := Z.max 0 (floor_div (total_principal s * i) unit_index) - supply s.
(** What [a] receives from the yield account: the flexible vault the claims of both vaults
    (after season one the collector that of the staked vault), the warp account
    and the escrow accounts of channels with a recipient their own. *)
Definition index_received (s : state) (i : Z) (a : addr) : Z :=
  (if v_ended (st_vaults s) then on a (v_collector (st_vaults s)) (claim_at s i StakedA)
   else on a FlexibleA (claim_at s i FlexibleA + claim_at s i StakedA)) +
  on a WarpA (claim_at s i WarpA) +
  sum_channels s (fun ch => on a (AEscrow transfer_port ch) (claim_at s i (AEscrow transfer_port ch))).
(** The packet sent over a channel: its claim and what was waiting, to its recipient. *)
Definition channel_packet (c : config) (x : oracle) (s : state) (i : Z) (ch : string) : option packet :=
  let e := AEscrow transfer_port ch in
  let z := claim_at s i e + retry_of s IBC ch in
  match d_recipients (st_dollar s) !! (IBC, ch) with
  | Some rc =>
    if decide (o_ibc x ch = XOk /\ 0 < z <= bal s e + claim_at s i e)
    then Some (mk_packet transfer_port ch (Some (mk_ft (c_denom c) (Some z) (c_enc c e) rc))) else None
  | None => None
  end.
(** The hyperlane transfer attempted for a route: its share of the warp account's claim and what was waiting. *)
Definition route_attempt (c : config) (s : state) (i : Z) (id : string) : option hypmsg :=
  let y := claim_at s i WarpA in
  let z := route_share c s y id + retry_of s HYPERLANE id in
  match d_recipients (st_dollar s) !! (HYPERLANE, id), c_hex c id with
  | Some rc, Some h =>
    match c_hex c rc, x_routers (st_world s) !! be_decode (drop 24 h) with
    | Some r, Some [d] =>
      if decide (0 < y /\ 0 < sum_routes s (collateral_of c s) /\ 0 < z <= bal s WarpA + y)
      then Some (mk_hypmsg WarpA (be_decode (drop 24 h)) d r z) else None
    | _, _ => None
    end
  | _, _ => None
  end.
Definition route_message (c : config) (x : oracle) (s : state) (i : Z) (id : string) : option hypmsg :=
  if decide (o_hyp x id = XOk) then route_attempt c s i id else None.
(** An attempt that was not refused at once leaves the token with its collateral as
    read before the update, plus the amount. *)
Definition collateral_write (c : config) (x : oracle) (s : state) (i : Z) (m : gmap Z Z) (id : string) : gmap Z Z :=
  match route_attempt c s i id with
  | Some h => if decide (o_hyp x id = XReject) then m else <[hm_token h := collateral_of c s id + hm_amount h]> m
  | None => m
  end.
(** The external yield an update credits to [(p, id)], and whether it leaves the chain. *)
Definition external_claim (c : config) (s : state) (i p : Z) (id : string) : Z :=
  match d_recipients (st_dollar s) !! (p, id) with
  | None => 0
  | Some _ => if decide (p = IBC) then claim_at s i (AEscrow transfer_port id)
              else if decide (p = HYPERLANE) then route_share c s (claim_at s i WarpA) id else 0
  end.
Definition external_leaves (c : config) (x : oracle) (s : state) (i p : Z) (id : string) : bool :=
  if decide (p = IBC) then bool_decide (is_Some (channel_packet c x s i id))
  else if decide (p = HYPERLANE) then bool_decide (is_Some (route_message c x s i id)) else false.
Record index_effect (c : config) (x : oracle) (s s' : state) (i : Z) (digest : bytes) : Prop := {
  ia_index : current_index s < i /\ current_index s' = i;
  ia_minted : 0 <= index_minted s i /\ supply s' = supply s + index_minted s i /\
    ds_yield (d_stats (st_dollar s')) = ds_yield (d_stats (st_dollar s)) + index_minted s i;
  ia_balance : forall a, bal s' a = bal s a + index_received s i a + on a YieldA (index_minted s i - index_claims s i);
  ia_principal : exists q, (forall a, prin s' a = prin s a - on a StakedA q
        + on a (if v_ended (st_vaults s) then v_collector (st_vaults s) else FlexibleA) q) /\
    (if v_ended (st_vaults s) then q = ceil_div (claim_at s i StakedA * unit_index) i
     else i <= 10 ^ 18 -> q = floor_div (claim_at s i StakedA * unit_index) i);
  ia_total : total_principal s' = total_principal s;
  ia_settings : d_paused (st_dollar s') = d_paused (st_dollar s) /\ d_recipients (st_dollar s') = d_recipients (st_dollar s) /\
    st_portal s' = st_portal s;
  ia_vaults : st_vaults s' = mk_vaults (v_paused (st_vaults s)) (v_ended (st_vaults s)) (v_collector (st_vaults s))
    (v_positions (st_vaults s)) (v_total_flex (st_vaults s))
    (if v_ended (st_vaults s) then v_rewards (st_vaults s)
     else <[i := mk_reward i (v_total_flex (st_vaults s)) (claim_at s i FlexibleA + claim_at s i StakedA)]> (v_rewards (st_vaults s)))
    (v_stats (st_vaults s));
  ia_external : forall p id, external_of s' p id = external_of s p id + external_claim c s i p id;
  ia_retry : forall p id, retry_of s' p id =
    if external_leaves c x s i p id then 0 else retry_of s p id + external_claim c s i p id;
  ia_world : exists chs ids, identifiers s IBC chs /\ identifiers s HYPERLANE ids /\
    st_world s' = mk_world (x_now (st_world s)) ({[digest]} ∪ x_vaas (st_world s)) (x_posted (st_world s)) (x_channels (st_world s))
      (x_inflight (st_world s) ++ omap (channel_packet c x s i) chs) (x_acked (st_world s))
      (foldl (collateral_write c x s i) (x_tokens (st_world s)) ids) (x_routers (st_world s))
      (x_dispatched (st_world s) ++ omap (route_message c x s i) ids)
}.

(** [x] newly issued to [r]: the yield account gets no principal. *)
Record issue_effect (s s' : state) (r : addr) (x : Z) : Prop := {
  is_balance : forall a, bal s' a = bal s a + on a r x;
  is_supply : supply s' = supply s + x;
  is_principal : forall a, prin s' a = prin s a + (if decide (r = YieldA) then 0 else on a r (floor_div (x * unit_index) (current_index s)));
  is_total : total_principal s' = total_principal s + (if decide (r = YieldA) then 0 else ceil_div (x * unit_index) (current_index s));
  is_dollar : current_index s' = current_index s /\ ds_yield (d_stats (st_dollar s')) = ds_yield (d_stats (st_dollar s)) /\
    d_ext_yield (st_dollar s') = d_ext_yield (st_dollar s) /\ d_retry (st_dollar s') = d_retry (st_dollar s) /\
    d_paused (st_dollar s') = d_paused (st_dollar s) /\ d_recipients (st_dollar s') = d_recipients (st_dollar s);
  is_rest : st_portal s' = st_portal s /\ st_vaults s' = st_vaults s /\ st_world s' = st_world s
}.

(** * Genesis *)
Definition no_slash (t : string) : Prop := ~ slash ∈ String.list_ascii_of_string t.
(** A key of the tables for other chains that survives being printed. *)
Definition tidy_key (k : Z * string) : Prop := (k.1 = IBC \/ k.1 = HYPERLANE) /\ no_slash k.2.
Definition tidy_keys (s : state) : Prop :=
  (forall k, is_Some (d_ext_yield (st_dollar s) !! k) -> tidy_key k) /\
  (forall k, is_Some (d_recipients (st_dollar s) !! k) -> tidy_key k) /\
  (forall k, is_Some (d_retry (st_dollar s) !! k) -> tidy_key k).
(** Two genesis states that differ only in the order of the entries of maps. *)
Record same_genesis (g g' : genesis) : Prop := {
  sg_paused : g_paused g = g_paused g';
  sg_index : g_index g = g_index g';
  sg_principal : g_principal g ≡ₚ g_principal g';
  sg_stats : g_stats g = g_stats g';
  sg_ext_yield : g_ext_yield g ≡ₚ g_ext_yield g';
  sg_recipients : g_recipients g ≡ₚ g_recipients g';
  sg_retry : g_retry g ≡ₚ g_retry g';
  sg_owner : g_owner g = g_owner g';
  sg_portal_paused : g_portal_paused g = g_portal_paused g';
  sg_peers : g_peers g ≡ₚ g_peers g';
  sg_paths : g_paths g ≡ₚ g_paths g';
  sg_nonce : g_nonce g = g_nonce g';
  sg_positions : g_positions g ≡ₚ g_positions g';
  sg_rewards : g_rewards g ≡ₚ g_rewards g';
  sg_vaults_paused : g_vaults_paused g = g_vaults_paused g';
  sg_ended : g_ended g = g_ended g';
  sg_collector : g_collector g = g_collector g';
  sg_vstats : g_vstats g = g_vstats g';
  sg_total_flex : g_total_flex g = g_total_flex g'
}.
(** Messages that keep the tables printable and paths supported. Identifiers of
    channels and hexadecimal token identifiers contain no slash. *)
Definition tidy_op (o : op) : Prop :=
  match o with
  | OpSetYieldRecipient _ p id _ => tidy_key (p, id)
  | OpSetBridgingPath _ _ _ b => b = true
  | _ => True
  end.

(** * Cover for other chains *)
(** Recorded collateral of all hyperlane tokens, and the hyperlane yield waiting to be
    sent again. *)
Definition hyp_collateral (s : state) : Z := map_sum (x_tokens (st_world s)).
Definition hyp_waiting (s : state) : Z :=
  map_fold (fun k v acc => (if bool_decide (k.1 = HYPERLANE) then v else 0) + acc) 0 (d_retry (st_dollar s)).
(** A delivery in which no hyperlane dispatch fails half way, after the token has
    been written. *)
Definition atomic_dispatch (o : op) : Prop :=
  match o with OpDeliver x _ => forall id, o_hyp x id <> XFail | _ => True end.
(** The USDN a packet carries over a channel. *)
Definition usdn_carried (c : config) (ch : string) (p : packet) : Z :=
  match pk_data p with
  | Some d => if bool_decide (pk_chan p = ch) && bool_decide (ft_denom d = c_denom c) then default 0 (ft_amount d) else 0
  | None => 0
  end.
(** USDN in packets of a channel that wait for their acknowledgement, and that arrived. *)
Definition usdn_in_flight (c : config) (s : state) (ch : string) : Z := list_sum (usdn_carried c ch) (x_inflight (st_world s)).
Definition usdn_arrived (c : config) (s : state) (ch : string) : Z := list_sum (usdn_carried c ch) (x_acked (st_world s)).
(** USDN that came back over a channel during a history. *)
Fixpoint usdn_returned (c : config) (s : state) (ops : list op) (ch : string) : Z :=
  match ops with
  | [] => 0
  | o :: l =>
    match o with
    | OpIbcRecv ch' _ x => if succeeds c s o && bool_decide (ch' = ch) then x else 0
    | _ => 0
    end + usdn_returned c (step c s o) l ch
  end.
(** Amounts that a payment between two accounts works with stay far inside [math.Int]. *)
Record payment_in_range (s : state) (f t : addr) : Prop := {
  pr_balance : bal s f * unit_index < 2 ^ 200;
  pr_from : Z.abs (prin s f) < 2 ^ 255;
  pr_to : Z.abs (prin s t) < 2 ^ 255;
  pr_received : bal s t < 2 ^ 255
}.

(** * Worth *)
(** What an account is worth: its balance, or the value of its principal at the current
    index where that is more. *)
Definition worth (s : state) (a : addr) : Z := Z.max (bal s a) (floor_div (prin s a * current_index s) unit_index).

(** The accounts and totals are the same again. *)
Definition restored (s s' : state) : Prop :=
  (forall a, bal s' a = bal s a) /\ (forall a, prin s' a = prin s a) /\ supply s' = supply s /\ total_principal s' = total_principal s /\
  current_index s' = current_index s.

(** * Stored state *)
(** The contents of the stores between messages. *)
Record well_formed (c : config) (s : state) : Prop := {
  wl_issuance : bal s ModuleA = 0;
  wl_index : 0 < current_index s < 2 ^ 63;
  wl_nonce : 0 <= p_nonce (st_portal s) < 2 ^ 32;
  wl_positions : forall a v t p, positions s !! (a, v, t) = Some p ->
    (exists b, a = AUser b) /\ a_vault v /\ pos_time p = t /\ t <= x_now (st_world s) /\
    0 < pos_amount p /\ 0 < pos_index p <= current_index s /\
    floor_div (pos_amount p * unit_index) (pos_index p) <= pos_principal p;
  wl_rewards : forall i r, rewards s !! i = Some r -> rw_index r = i /\ i <= current_index s;
  wl_collateral : forall tok x, x_tokens (st_world s) !! tok = Some x -> 0 <= x;
  wl_retry : forall p id, 0 <= retry_of s p id;
  (* a packet in flight that carries USDN carries a positive amount, from a user or
     another module or from the escrow of its channel *)
  wl_packets : forall p, p ∈ x_inflight (st_world s) -> is_usdn c p = true ->
    exists from x rc, p = mk_packet transfer_port (pk_chan p) (Some (mk_ft (c_denom c) (Some x) (c_enc c from) rc)) /\
      0 < x /\ (external from = true \/ from = AEscrow transfer_port (pk_chan p))
}.

(** * Which message touches what *)
(** The parts of the stored state. *)
Inductive part :=
| PBalances | PSupply                                   (* bank *)
| PDollarPaused | PIndex | PPrincipal | PHolders | PYieldAccrued | PExternalYield | PYieldRecipients | PRetry
| POwner | PPortalPaused | PPeers | PPaths | PNonce
| PVaultsPaused | PSeasonEnded | PCollector | PPositions | PFlexiblePrincipal | PRewards | PVaultStats
| PTime | PConsumed | PPosted | PChannels | PInFlight | PArrived | PCollateral | PRoutes | PDispatched.
(** The part is the same in both states. *)
Definition unchanged (p : part) (s s' : state) : Prop :=
  match p with
  | PBalances => forall a, bal s' a = bal s a
  | PSupply => supply s' = supply s
  | PDollarPaused => d_paused (st_dollar s') = d_paused (st_dollar s)
  | PIndex => current_index s' = current_index s
  | PPrincipal => (forall a, prin s' a = prin s a) /\ total_principal s' = total_principal s
  | PHolders => ds_holders (d_stats (st_dollar s')) = ds_holders (d_stats (st_dollar s))
  | PYieldAccrued => ds_yield (d_stats (st_dollar s')) = ds_yield (d_stats (st_dollar s))
  | PExternalYield => d_ext_yield (st_dollar s') = d_ext_yield (st_dollar s)
  | PYieldRecipients => d_recipients (st_dollar s') = d_recipients (st_dollar s)
  | PRetry => d_retry (st_dollar s') = d_retry (st_dollar s)
  | POwner => p_owner (st_portal s') = p_owner (st_portal s)
  | PPortalPaused => p_paused (st_portal s') = p_paused (st_portal s)
  | PPeers => p_peers (st_portal s') = p_peers (st_portal s)
  | PPaths => p_paths (st_portal s') = p_paths (st_portal s)
  | PNonce => p_nonce (st_portal s') = p_nonce (st_portal s)
  | PVaultsPaused => v_paused (st_vaults s') = v_paused (st_vaults s)
  | PSeasonEnded => v_ended (st_vaults s') = v_ended (st_vaults s)
  | PCollector => v_collector (st_vaults s') = v_collector (st_vaults s)
  | PPositions => positions s' = positions s
  | PFlexiblePrincipal => v_total_flex (st_vaults s') = v_total_flex (st_vaults s)
  | PRewards => rewards s' = rewards s
  | PVaultStats => v_stats (st_vaults s') = v_stats (st_vaults s)
  | PTime => x_now (st_world s') = x_now (st_world s)
  | PConsumed => x_vaas (st_world s') = x_vaas (st_world s)
  | PPosted => x_posted (st_world s') = x_posted (st_world s)
  | PChannels => x_channels (st_world s') = x_channels (st_world s)
  | PInFlight => x_inflight (st_world s') = x_inflight (st_world s)
  | PArrived => x_acked (st_world s') = x_acked (st_world s)
  | PCollateral => x_tokens (st_world s') = x_tokens (st_world s)
  | PRoutes => x_routers (st_world s') = x_routers (st_world s)
  | PDispatched => x_dispatched (st_world s') = x_dispatched (st_world s)
  end.
(** The parts each message is there to change. *)
Definition books : list part := [PBalances; PPrincipal; PHolders].
Definition touched (o : op) : list part :=
  match o with
  | OpTime _ => [PTime]
  | OpClaimYield _ => [PBalances]
  | OpSetPaused _ _ => [PDollarPaused]
  | OpSetYieldRecipient _ _ _ _ => [PYieldRecipients]
  | OpLock _ _ _ => books ++ [PPositions; PFlexiblePrincipal; PVaultStats]
  | OpUnlock _ _ _ => books ++ [PPositions; PFlexiblePrincipal; PVaultStats; PRewards]
  | OpVaultsSetPaused _ _ => [PVaultsPaused]
  | OpDeliver _ _ => books ++ [PSupply; PIndex; PYieldAccrued; PExternalYield; PRetry; PRewards; PConsumed; PInFlight; PCollateral; PDispatched]
  | OpTransfer _ _ _ _ _ _ => books ++ [PSupply; PNonce; PPosted]
  | OpPortalSetPaused _ _ => [PPortalPaused]
  | OpSetPeer _ _ _ _ => [PPeers]
  | OpSetBridgingPath _ _ _ _ => [PPaths]
  | OpTransferOwnership _ _ => [POwner]
  | OpSend _ _ _ | OpMultiSend _ _ | OpIbcRecv _ _ _ => books
  | OpIbcSend _ _ _ _ _ => books ++ [PInFlight]
  | OpIbcSendOther _ _ => [PInFlight]
  | OpIbcAck _ _ => books ++ [PInFlight; PArrived; PRetry]
  | OpIbcTimeout _ => books ++ [PInFlight; PRetry]
  | OpEndSeason _ => [PSeasonEnded; PCollector]
  | OpChannelOpen _ => [PChannels]
  | OpWarpSend _ _ _ _ _ _ => books ++ [PCollateral; PDispatched]
  | OpWarpRecv _ _ _ => books ++ [PCollateral]
  | OpWarpToken _ => [PCollateral]
  | OpWarpRouters _ _ => [PRoutes]
  end.
Global Instance part_eq_dec : EqDecision part.
Proof. solve_decision. Defined.

(** * The flexible vault after season one *)
(** Season one is over in [s'], and between the two states no flexible position was
    opened, changed or closed, no reward record was written, and no account of the
    vault paid anything out. *)
Record frozen (c : config) (s s' : state) : Prop := {
  fz_ended : v_ended (st_vaults s') = true;
  fz_positions : forall u t, positions s' !! (u, FLEXIBLE, t) = positions s !! (u, FLEXIBLE, t);
  fz_principal : v_total_flex (st_vaults s') = v_total_flex (st_vaults s);
  fz_stat : vs_flex_principal (v_stats (st_vaults s')) = vs_flex_principal (v_stats (st_vaults s)) /\
    vs_flex_users (v_stats (st_vaults s')) = vs_flex_users (v_stats (st_vaults s));
  fz_rewards : rewards s' = rewards s;
  fz_accounts : forall u t, bal s (vault_account c FLEXIBLE u t) <= bal s' (vault_account c FLEXIBLE u t);
  fz_vault : bal s FlexibleA <= bal s' FlexibleA
}.
