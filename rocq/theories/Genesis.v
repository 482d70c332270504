(** genesis.go, keeper/migrations.go, types/v2/provider.go, types/v2/genesis.go. *)
From Verif Require Export Vaults Portal.

(** types/v2/genesis.pb.go GenesisState with its portal and vaults parts. A Go map
    is a list of its entries in some order. Numbers kept as decimal strings
    (principal, external yield, retry amounts) are represented by the value they
    parse to, [None] if they do not parse. *)
Record genesis := mk_genesis {
  g_paused : bool;
  g_index : Z;
  g_principal : list (string * option Z);
  g_stats : dstats;
  g_ext_yield : list (string * option Z);
  g_recipients : list (string * string);
  g_retry : list (string * option Z);
  g_owner : string;
  g_portal_paused : bool;
  g_peers : list (Z * peer);
  g_paths : list (Z * bytes);
  g_nonce : Z;
  g_positions : list (addr * Z * position);
  g_rewards : list reward;
  g_vaults_paused : Z;
  g_ended : bool;
  g_collector : string;
  g_vstats : vstats;
  g_total_flex : Z
}.

(** strings.Split(key, "/") *)
Definition slash : Ascii.ascii := Ascii.ascii_of_N 47.
Fixpoint split_slash (s : string) : list string :=
  match s with
  | EmptyString => [""%string]
  | String a r =>
    if Ascii.eqb a slash then ""%string :: split_slash r
    else match split_slash r with
         | h :: t => String a h :: t
         | [] => [String a ""]
         end
  end.

(** Provider_value: missing names give 0 *)
Definition provider_value (n : string) : Z :=
  if bool_decide (n = "HYPERLANE"%string) then HYPERLANE else IBC.
(** Provider.String(): undeclared numbers are printed in decimal *)
Definition provider_name (p : Z) : string :=
  if p =? IBC then "IBC" else if p =? HYPERLANE then "HYPERLANE" else pretty p.

(** types/v2/provider.go:25-31 ParseYieldRecipientKey; [None] is the index panic *)
Definition parse_key (key : string) : option (Z * string) :=
  match split_slash key with
  | n :: id :: _ => Some (provider_value n, id)
  | _ => None
  end.
(** keeper/state.go:156 etc. fmt.Sprintf("%s/%s", Provider, identifier) *)
Definition format_key (k : Z * string) : string := provider_name k.1 +:+ "/" +:+ k.2.

Definition opt {A} (o : option A) : M A :=
  match o with Some a => ret a | None => panic end.

(** genesis.go:38-183 InitGenesis: every error is a panic. *)
Definition init_genesis (c : config) (g : genesis) : M unit :=
  modify (fun s => s <| st_dollar; d_paused := g_paused g |>);;;
  modify (fun s => s <| st_dollar; d_index := g_index g |>);;;
  for_each (fun kv => a <- opt (c_dec c kv.1);; z <- opt kv.2;; set_principal a z) (g_principal g);;;
  modify (fun s => s <| st_dollar; d_stats := g_stats g |>);;;
  for_each (fun kv => k <- opt (parse_key kv.1);; z <- opt kv.2;;
    modify (fun s => s <| st_dollar; d_ext_yield ::= <[k := z]> |>)) (g_ext_yield g);;;
  for_each (fun kv => k <- opt (parse_key kv.1);;
    modify (fun s => s <| st_dollar; d_recipients ::= <[k := kv.2]> |>)) (g_recipients g);;;
  for_each (fun kv => z <- opt kv.2;; k <- opt (parse_key kv.1);;
    modify (fun s => s <| st_dollar; d_retry ::= <[k := z]> |>)) (g_retry g);;;
  modify (fun s => s <| st_portal; p_owner := g_owner g |>);;;
  modify (fun s => s <| st_portal; p_paused := g_portal_paused g |>);;;
  for_each (fun kv => modify (fun s => s <| st_portal; p_peers ::= <[kv.1 := kv.2]> |>)) (g_peers g);;;
  for_each (fun k => modify (fun s => s <| st_portal; p_paths ::= <[k := true]> |>)) (g_paths g);;;
  modify (fun s => s <| st_portal; p_nonce := g_nonce g |>);;;
  for_each (fun avp => set_position (avp.1.1, avp.1.2, pos_time avp.2) avp.2) (g_positions g);;;
  for_each (fun r => modify (fun s => s <| st_vaults; v_rewards ::= <[rw_index r := r]> |>)) (g_rewards g);;;
  modify (fun s => s <| st_vaults; v_paused := g_vaults_paused g |>);;;
  modify (fun s => s <| st_vaults; v_ended := g_ended g |>);;;
  a <- opt (c_dec c (g_collector g));;
  modify (fun s => s <| st_vaults; v_collector := a |>);;;
  modify (fun s => s <| st_vaults; v_stats := g_vstats g |>);;;
  modify (fun s => s <| st_vaults; v_total_flex := g_total_flex g |>).

(** genesis.go:185-233 ExportGenesis, in some iteration order of the maps.
    keeper/state.go:40-54 GetPrincipal, 150-163, 166-175, 204-213;
    keeper/state_portal.go:39-69 (only supported paths are exported);
    keeper/state_vaults.go:94-115, 168-187. *)
Definition export_genesis (c : config) (s : state) : genesis :=
  let d := st_dollar s in let p := st_portal s in let v := st_vaults s in
  {| g_paused := d_paused d;
     g_index := d_index d;
     g_principal := (fun kv => (c_enc c kv.1, Some kv.2)) <$> map_to_list (d_principal d);
     g_stats := d_stats d;
     g_ext_yield := (fun kv => (format_key kv.1, Some kv.2)) <$> map_to_list (d_ext_yield d);
     g_recipients := (fun kv => (format_key kv.1, kv.2)) <$> map_to_list (d_recipients d);
     g_retry := (fun kv => (format_key kv.1, Some kv.2)) <$> map_to_list (d_retry d);
     g_owner := p_owner p;
     g_portal_paused := p_paused p;
     g_peers := map_to_list (p_peers p);
     g_paths := omap (fun kv : (Z * bytes) * bool => if kv.2 then Some kv.1 else None)
                  (map_to_list (p_paths p));
     g_nonce := p_nonce p;
     g_positions := (fun kv => (kv.1.1.1, kv.1.1.2, kv.2)) <$> map_to_list (v_positions v);
     g_rewards := snd <$> map_to_list (v_rewards v);
     g_vaults_paused := v_paused v;
     g_ended := v_ended v;
     g_collector := c_enc c (v_collector v);
     g_vstats := v_stats v;
     g_total_flex := v_total_flex v |}.

(** types/v2/genesis.go:23-27 DefaultGenesisState: everything else has its zero
    value. Simplification: nil integers are 0. *)
Definition default_genesis : genesis :=
  mk_genesis false e12 [] (mk_dstats 0 0 0) [] [] [] "" false [] [] 0 [] [] 0 false ""
    (mk_vstats 0 0 0 0 0) 0.
(** The default genesis with the season two yield collector filled in, as a chain
    operator must. *)
Definition default_with (collector : string) : genesis :=
  let g := default_genesis in
  mk_genesis (g_paused g) (g_index g) (g_principal g) (g_stats g) (g_ext_yield g) (g_recipients g) (g_retry g)
    (g_owner g) (g_portal_paused g) (g_peers g) (g_paths g) (g_nonce g) (g_positions g) (g_rewards g)
    (g_vaults_paused g) (g_ended g) collector (g_vstats g) (g_total_flex g).

(** A store without module data, next to a given bank and world. *)
Definition blank (b : bank) (w : world) : state :=
  mk_state b
    (mk_dollar false 0 ∅ (mk_dstats 0 0 0) ∅ ∅ ∅)
    (mk_portal "" false ∅ ∅ 0)
    (mk_vaults 0 false ModuleA ∅ 0 ∅ (mk_vstats 0 0 0 0 0)) w.

(** types Stats of version 1 *)
Record stats_v1 := mk_stats_v1 { s1_holders : Z; s1_principal : Z; s1_yield : Z }.
(** keeper/migrations.go:50-68 Migrate1to2; [None] if the v1 item is missing *)
Definition migrate1to2 (v1 : option stats_v1) : M unit :=
  match v1 with
  | None => fail ENotFound
  | Some t => modify (fun s => s <| st_dollar; d_stats :=
      mk_dstats (s1_holders t) (s1_principal t) (s1_yield t) |>)
  end.
