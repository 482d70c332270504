(** The raw key-value store under the module's collections (keeper/keeper.go:70-90,
    141-165, keeper/state_vaults.go:33-63) and the key codecs of
    cosmossdk.io/collections v0.4.0 they use. The rest of the model works on typed
    maps; this file says where their entries lie. Values are not serialised. *)
From Verif Require Export Vaults.

(** * Bytes in order *)

(** bytes.Compare(x, y) < 0, the order the store iterates in. *)
Fixpoint bytes_ltb (x y : bytes) : bool :=
  match x, y with
  | _, [] => false
  | [], _ :: _ => true
  | a :: x', b :: y' =>
    if Z_of_byte a <? Z_of_byte b then true
    else if Z_of_byte b <? Z_of_byte a then false else bytes_ltb x' y'
  end.
Definition bkey_le {A} (x y : bytes * A) : Prop := bytes_ltb y.1 x.1 = false.
Global Instance bkey_le_dec {A} (x y : bytes * A) : Decision (bkey_le x y).
Proof. unfold bkey_le. apply _. Defined.

(** collections nextBytesPrefixKey: the least key above all keys with the prefix
    ([None] if there is none). *)
Fixpoint prefix_end (p : bytes) : option bytes :=
  match p with
  | [] => None
  | b :: q =>
    match prefix_end q with
    | Some e => Some (b :: e)
    | None => if Z_of_byte b =? 255 then None else Some [byte_of_Z (Z_of_byte b + 1)]
    end
  end.

(** An iterator of the store over [lo, hi): the entries in ascending order. *)
Definition within (lo : bytes) (hi : option bytes) (k : bytes) : bool :=
  negb (bytes_ltb k lo) && match hi with Some h => bytes_ltb k h | None => true end.
Definition scan {A} (lo : bytes) (hi : option bytes) (m : gmap bytes A) : list (bytes * A) :=
  merge_sort bkey_le (filter (fun kv => within lo hi kv.1 = true) (map_to_list m)).

(** * Key codecs *)

(** Uint16Key: big endian. *)
Definition uint16_key (z : Z) : bytes := be_encode 2 z.
(** Int32Key, Int64Key: big endian with the sign bit flipped. *)
Definition flip_sign (bs : bytes) : bytes :=
  match bs with [] => [] | b :: t => byte_of_Z (Z.lxor (Z_of_byte b) 128) :: t end.
Definition int32_key (z : Z) : bytes := flip_sign (be_encode 4 z).
Definition int64_key (z : Z) : bytes := flip_sign (be_encode 8 z).
(** BytesKey before another key: the length in one byte, then the bytes (at most 255). *)
Definition sized_key (b : bytes) : bytes := byte_of_Z (Z.of_nat (length b)) :: b.
(** PairKeyCodec(Int32Key, StringKey) *)
Definition named_key (provider : Z) (id : string) : bytes := int32_key provider ++ bytes_of_string id.
(** TripleKeyCodec(BytesKey, Int32Key, Int64Key) *)
Definition position_key (a : bytes) (vault time : Z) : bytes := sized_key a ++ int32_key vault ++ int64_key time.

(** * Collections *)

Inductive collection :=
| CPaused | CIndex | CPrincipal | CStats | CExternalYield | CRecipients | CRetry
| COwner | CPortalPaused | CPeers | CPaths | CNonce
| CVaultsPaused | CSeasonEnded | CCollector | CPositions | CByProvider | CByProviderAndVault
| CTotalFlexible | CRewards | CVaultsStats.
Global Instance collection_eq_dec : EqDecision collection.
Proof. solve_decision. Defined.

(** keeper/keeper.go:141-165 in the order the builder sees them (the indexes before
    the map they belong to): name and prefix (types/keys.go:38-46,
    types/portal/keys.go:34-40, types/vaults/keys.go:42-50, keeper/state_vaults.go:46-61). *)
Definition layout : list (collection * (string * string)) :=
  [(CPaused, ("paused", "paused")); (CIndex, ("index", "index"));
   (CPrincipal, ("principal", "principal/")); (CStats, ("stats", "stats"));
   (CExternalYield, ("total_external_yield", "total_external_yield/"));
   (CRecipients, ("yield_recipients", "yield_recipient/"));
   (CRetry, ("retry_amounts", "retry_amount/"));
   (COwner, ("portal_owner", "portal/owner")); (CPortalPaused, ("portal_paused", "portal/paused"));
   (CPeers, ("portal_peers", "portal/peer/"));
   (CPaths, ("portal_bridging_paths", "portal/bridging_path/")); (CNonce, ("portal_nonce", "portal/nonce"));
   (CVaultsPaused, ("vaults_paused", "vaults/paused"));
   (CSeasonEnded, ("vaults_season_one_ended", "vaults/season_one_ended"));
   (CCollector, ("vaults_season_two_yield_collector", "vaults/season_two_yield_collector"));
   (CByProvider, ("vaults_positions_by_provider", "vaults_positions_by_provider"));
   (CByProviderAndVault, ("vaults_positions_by_pair_provider_and_vault", "vaults_positions_by_pair_provider_and_vault"));
   (CPositions, ("vaults_positions", "vaults/position/"));
   (CTotalFlexible, ("vaults_total_flexible_principal", "vaults/total_flexible_principal"));
   (CRewards, ("vaults_rewards", "vaults/reward/")); (CVaultsStats, ("vaults_stats", "vaults/stats"))]%string.
(** The prefix of a collection (types/keys.go:38-46 and so on, as listed above). *)
Definition prefix_of (k : collection) : bytes :=
  match find (fun e => bool_decide (e.1 = k)) layout with
  | Some e => bytes_of_string e.2.2
  | None => []
  end.

(** collections SchemaBuilder.addCollection and Build: names of letters, digits and
    underscores starting with a letter, no name twice, no prefix that starts with
    another. NewKeeper panics otherwise (keeper/keeper.go:167-170). *)
Definition is_letter (a : Ascii.ascii) : bool :=
  let n := Ascii.N_of_ascii a in ((65 <=? n) && (n <=? 90) || (97 <=? n) && (n <=? 122))%N.
Definition is_word (a : Ascii.ascii) : bool :=
  let n := Ascii.N_of_ascii a in is_letter a || ((48 <=? n) && (n <=? 57) || (n =? 95))%N.
Definition name_ok (n : string) : bool :=
  match String.list_ascii_of_string n with [] => false | a :: t => is_letter a && forallb is_word t end.
Fixpoint starts_with (p k : bytes) : bool :=
  match p, k with
  | [], _ => true
  | _, [] => false
  | a :: p', b :: k' => bool_decide (a = b) && starts_with p' k'
  end.
Fixpoint build (l : list (string * bytes)) : bool :=
  match l with
  | [] => true
  | (n, p) :: t =>
    name_ok n && forallb (fun e => negb (bool_decide (e.1 = n)) && negb (starts_with p e.2) && negb (starts_with e.2 p)) t
    && build t
  end.
(** keeper/keeper.go:167 the schema of NewKeeper *)
Definition schema : list (string * bytes) := (fun e => (e.2.1, bytes_of_string e.2.2)) <$> layout.

(** * Items *)

(** One entry of a collection. *)
Inductive item :=
| KPaused | KIndex | KPrincipal (a : addr) | KStats
| KExternalYield (p : Z) (id : string) | KRecipient (p : Z) (id : string) | KRetry (p : Z) (id : string)
| KOwner | KPortalPaused | KPeer (chain : Z) | KPath (chain : Z) (token : bytes) | KNonce
| KVaultsPaused | KSeasonEnded | KCollector
| KPosition (a : addr) (v t : Z)
| KByProvider (a : addr) (v t : Z)          (* index entry of that position *)
| KByProviderAndVault (a : addr) (v t : Z)  (* index entry of that position *)
| KTotalFlexible | KReward (i : Z) | KVaultsStats.

Definition collection_of (k : item) : collection :=
  match k with
  | KPaused => CPaused | KIndex => CIndex | KPrincipal _ => CPrincipal | KStats => CStats
  | KExternalYield _ _ => CExternalYield | KRecipient _ _ => CRecipients | KRetry _ _ => CRetry
  | KOwner => COwner | KPortalPaused => CPortalPaused | KPeer _ => CPeers | KPath _ _ => CPaths | KNonce => CNonce
  | KVaultsPaused => CVaultsPaused | KSeasonEnded => CSeasonEnded | KCollector => CCollector
  | KPosition _ _ _ => CPositions | KByProvider _ _ _ => CByProvider | KByProviderAndVault _ _ _ => CByProviderAndVault
  | KTotalFlexible => CTotalFlexible | KReward _ => CRewards | KVaultsStats => CVaultsStats
  end.

(** The key inside the collection: the codecs of keeper/keeper.go:141-165; an index
    entry is the indexed part of the key followed by the key (indexes.Multi,
    keeper/state_vaults.go:46-61); an Item has the empty key. *)
Definition inner_key (c : config) (k : item) : bytes :=
  match k with
  | KPrincipal a => c_raw c a
  | KExternalYield p id | KRecipient p id | KRetry p id => named_key p id
  | KPeer chain => uint16_key chain
  | KPath chain token => uint16_key chain ++ token
  | KPosition a v t => position_key (c_raw c a) v t
  | KByProvider a v t => sized_key (c_raw c a) ++ position_key (c_raw c a) v t
  | KByProviderAndVault a v t => (sized_key (c_raw c a) ++ int32_key v) ++ position_key (c_raw c a) v t
  | KReward i => int64_key i
  | _ => []
  end.
(** The key in the store. *)
Definition raw_key (c : config) (k : item) : bytes := prefix_of (collection_of k) ++ inner_key c k.

(** * Contents *)

Inductive value :=
| VBool (b : bool) | VInt (z : Z) | VString (s : string) | VAddress (a : addr)
| VStats (t : dstats) | VPeer (p : peer) | VPosition (p : position) | VReward (r : reward) | VVaultsStats (t : vstats)
| VNone.

(** What the module has stored under an item; an IndexedMap keeps one entry per
    position in each index. Simplification: single items are always present. *)
Definition content (s : state) (k : item) : option value :=
  let d := st_dollar s in let p := st_portal s in let v := st_vaults s in
  match k with
  | KPaused => Some (VBool (d_paused d))
  | KIndex => Some (VInt (d_index d))
  | KPrincipal a => VInt <$> d_principal d !! a
  | KStats => Some (VStats (d_stats d))
  | KExternalYield q id => VInt <$> d_ext_yield d !! (q, id)
  | KRecipient q id => VString <$> d_recipients d !! (q, id)
  | KRetry q id => VInt <$> d_retry d !! (q, id)
  | KOwner => Some (VString (p_owner p))
  | KPortalPaused => Some (VBool (p_paused p))
  | KPeer ch => VPeer <$> p_peers p !! ch
  | KPath ch t => VBool <$> p_paths p !! (ch, t)
  | KNonce => Some (VInt (p_nonce p))
  | KVaultsPaused => Some (VInt (v_paused v))
  | KSeasonEnded => Some (VBool (v_ended v))
  | KCollector => Some (VAddress (v_collector v))
  | KPosition a q t => VPosition <$> v_positions v !! (a, q, t)
  | KByProvider a q t | KByProviderAndVault a q t => (fun _ => VNone) <$> v_positions v !! (a, q, t)
  | KTotalFlexible => Some (VInt (v_total_flex v))
  | KReward i => VReward <$> v_rewards v !! i
  | KVaultsStats => Some (VVaultsStats (v_stats v))
  end.

(** All items with a content. *)
Definition single_items : list item :=
  [KPaused; KIndex; KStats; KOwner; KPortalPaused; KNonce; KVaultsPaused; KSeasonEnded; KCollector; KTotalFlexible; KVaultsStats].
Definition keyed {K A} (f : K -> item) (l : list (K * A)) : list item := (fun kv => f kv.1) <$> l.
Definition items (s : state) : list item :=
  let d := st_dollar s in let p := st_portal s in let v := st_vaults s in
  let pos := map_to_list (v_positions v) in
  single_items
  ++ keyed KPrincipal (map_to_list (d_principal d))
  ++ keyed (fun k => KExternalYield k.1 k.2) (map_to_list (d_ext_yield d))
  ++ keyed (fun k => KRecipient k.1 k.2) (map_to_list (d_recipients d))
  ++ keyed (fun k => KRetry k.1 k.2) (map_to_list (d_retry d))
  ++ keyed KPeer (map_to_list (p_peers p))
  ++ keyed (fun k => KPath k.1 k.2) (map_to_list (p_paths p))
  ++ keyed (fun k => KPosition k.1.1 k.1.2 k.2) pos
  ++ keyed (fun k => KByProvider k.1.1 k.1.2 k.2) pos
  ++ keyed (fun k => KByProviderAndVault k.1.1 k.1.2 k.2) pos
  ++ keyed KReward (map_to_list (v_rewards v)).
(** The store of the module. *)
Definition store (c : config) (s : state) : gmap bytes value :=
  list_to_map (omap (fun k => (fun v => (raw_key c k, v)) <$> content s k) (items s)).

(** * Walks *)

(** collections parseRangeInstruction for no range, a prefix of the key, and
    StartExclusive. *)
Definition walk (k : collection) (m : gmap bytes value) : list (bytes * value) :=
  scan (prefix_of k) (prefix_end (prefix_of k)) m.
Definition walk_prefix (k : collection) (p : bytes) (m : gmap bytes value) : list (bytes * value) :=
  scan (prefix_of k ++ p) (prefix_end (prefix_of k ++ p)) m.
Definition walk_after (k : collection) (p : bytes) (m : gmap bytes value) : list (bytes * value) :=
  scan (prefix_of k ++ p ++ [Coq.Init.Byte.x00]) (prefix_end (prefix_of k)) m.

(** * Keys that the codecs accept *)

(** The Go types of the key parts; addresses before another key are at most 255
    bytes long (the codec refuses longer ones). *)
Definition fits_u16 (z : Z) : Prop := 0 <= z < 2 ^ 16.
Definition fits_i32 (z : Z) : Prop := - 2 ^ 31 <= z < 2 ^ 31.
Definition fits_i64 (z : Z) : Prop := - 2 ^ 63 <= z < 2 ^ 63.
Definition fits (c : config) (k : item) : Prop :=
  match k with
  | KExternalYield p _ | KRecipient p _ | KRetry p _ => fits_i32 p
  | KPeer chain | KPath chain _ => fits_u16 chain
  | KPosition a v t | KByProvider a v t | KByProviderAndVault a v t =>
    Z.of_nat (length (c_raw c a)) <= 255 /\ fits_i32 v /\ fits_i64 t
  | KReward i => fits_i64 i
  | _ => True
  end.
(** The address in the key. *)
Definition address_in (k : item) : option addr :=
  match k with
  | KPrincipal a | KPosition a _ _ | KByProvider a _ _ | KByProviderAndVault a _ _ => Some a
  | _ => None
  end.
(** Two keys do not name different accounts by the same bytes. *)
Definition told_apart (c : config) (k1 k2 : item) : Prop :=
  forall a b, address_in k1 = Some a -> address_in k2 = Some b -> c_raw c a = c_raw c b -> a = b.
(** Every entry of the state has a key of the right types, and its accounts have
    different addresses. *)
Definition storable (c : config) (s : state) : Prop :=
  (forall k, content s k <> None -> fits c k) /\
  (forall k1 k2, content s k1 <> None -> content s k2 <> None -> told_apart c k1 k2).
(** The account is told apart from every account of the store. *)
Definition addressable (c : config) (s : state) (a : addr) : Prop :=
  Z.of_nat (length (c_raw c a)) <= 255 /\
  forall k b, content s k <> None -> address_in k = Some b -> c_raw c b = c_raw c a -> b = a.
