(** Genesis import and export, migration. *)
From Verif Require Export ExtP.

(** * Keys *)
Lemma split_no_slash t : no_slash t -> split_slash t = [t].
Proof.
  unfold no_slash. induction t as [|a t IH]; cbn [String.list_ascii_of_string split_slash]; [done|]. rewrite elem_of_cons. intros H.
  destruct (Ascii.eqb_spec a slash) as [->|]; [exfalso; tauto|]. rewrite IH; [done|]. intros ?. apply H. by right.
Qed.
Lemma split_slash_app n t : no_slash n -> split_slash (n +:+ String slash t) = n :: split_slash t.
Proof.
  unfold no_slash. induction n as [|a n IH]; intros H; [done|]. cbn [String.list_ascii_of_string] in H.
  rewrite elem_of_cons in H. change (String a n +:+ String slash t) with (String a (n +:+ String slash t)). cbn [split_slash].
  destruct (Ascii.eqb_spec a slash) as [->|]; [exfalso; tauto|]. rewrite IH; [done|]. intros ?. apply H. by right.
Qed.
Lemma parse_format k : tidy_key k -> parse_key (format_key k) = Some k.
Proof.
  destruct k as [p id]. intros [Hp Hid]. cbn in *. unfold parse_key, format_key. cbn [fst snd].
  change ("/" +:+ id) with (String slash id). rewrite split_slash_app.
  - rewrite split_no_slash by done. destruct Hp as [-> | ->]; done.
  - destruct Hp as [-> | ->]; vm_compute; set_solver.
Qed.

(** * Loading maps *)
Lemma for_each_load {A K V} `{Countable K} (f : A -> M unit) (upd : (gmap K V -> gmap K V) -> state -> state) (key : A -> K) (val : A -> V) l :
  (forall g h s, upd h (upd g s) = upd (fun m => h (g m)) s) -> (forall s, upd (fun m => m) s = s) ->
  (forall a, a ∈ l -> forall s, f a s = Ok (upd (fun m => <[key a := val a]> m) s) tt) ->
  forall s, for_each f l s = Ok (upd (fun m => foldl (fun m a => <[key a := val a]> m) m l) s) tt.
Proof.
  intros Hc Hi. induction l as [|a l IH]; intros Hf s; cbn; [unfold ret; by rewrite Hi|].
  unfold bind. rewrite Hf by left. rewrite IH; [by rewrite Hc|]. intros. apply Hf. by right.
Qed.
Lemma load_lookup {A K V} `{Countable K} (key : A -> K) (val : A -> V) l : forall (m : gmap K V) k,
  (exists a, a ∈ l /\ key a = k /\ foldl (fun m a => <[key a := val a]> m) m l !! k = Some (val a)) \/
  (forall a, a ∈ l -> key a <> k) /\ foldl (fun m a => <[key a := val a]> m) m l !! k = m !! k.
Proof.
  induction l as [|a l IH]; intros m k; cbn; [right; split; [|done]; by intros a ?%elem_of_nil|].
  destruct (IH (<[key a := val a]> m) k) as [(b & ? & ? & E)|[H1 H2]].
  - left. exists b. split; [by right|done].
  - rewrite H2. destruct (decide (key a = k)) as [<-|Hne].
    + left. exists a. split; [left|]. split; [done|]. by rewrite lookup_insert.
    + right. split; [|by rewrite lookup_insert_ne]. intros b [->|?]%elem_of_cons; auto.
Qed.
Lemma load_eq {A K V} `{Countable K} (key : A -> K) (val : A -> V) l (m : gmap K V) :
  (forall a, a ∈ l -> m !! key a = Some (val a)) -> (forall k v, m !! k = Some v -> exists a, a ∈ l /\ key a = k) ->
  foldl (fun m a => <[key a := val a]> m) ∅ l = m.
Proof.
  intros H1 H2. apply map_eq. intros k. destruct (load_lookup key val l ∅ k) as [(a & Ha & <- & ->)|[Hn ->]].
  - symmetry. auto.
  - rewrite lookup_empty. destruct (m !! k) as [v|] eqn:E; [|done]. exfalso. destruct (H2 _ _ E) as (a & Ha & Hk). by apply (Hn a).
Qed.

Definition only_true (m : gmap (Z * bytes) bool) : gmap (Z * bytes) bool := filter (fun kv => kv.2 = true) m.
Definition imported (s : state) (b : bank) (w : world) : state :=
  mk_state b (st_dollar s) (st_portal s <| p_paths := only_true (p_paths (st_portal s)) |>) (st_vaults s) w.

Lemma bind_ok {A B} (m : M A) (k : A -> M B) s s' a : m s = Ok s' a -> bind m k s = k a s'.
Proof. unfold bind. by intros ->. Qed.
Lemma import_export c s g b w : codec_ok c -> pmap_wf (v_positions (st_vaults s)) -> kinv s -> tidy_keys s ->
  same_genesis g (export_genesis c s) -> init_genesis c g (blank b w) = Ok (imported s b w) tt.
Proof.
  intros Hco Hpm Hk (T1 & T2 & T3) [].
  unfold init_genesis.
  erewrite bind_ok by done. erewrite bind_ok by done.
  (* principal *)
  erewrite bind_ok.
  2:{ apply (for_each_load _ (fun f s => s <| st_dollar; d_principal ::= f |>) (fun kv => default ModuleA (c_dec c kv.1)) (fun kv => default 0 kv.2)); [done|by intros [? [] ? ? ?]|].
      intros kv Hin s0. rewrite sg_principal in Hin. cbn in Hin. apply elem_of_list_fmap in Hin as ([a z] & -> & _). cbn.
      unfold opt, bind. rewrite (codec_roundtrip c Hco). done. }
  erewrite bind_ok by done.
  erewrite bind_ok.
  2:{ apply (for_each_load _ (fun f s => s <| st_dollar; d_ext_yield ::= f |>) (fun kv => default (0, ""%string) (parse_key kv.1)) (fun kv => default 0 kv.2)); [done|by intros [? [] ? ? ?]|].
      intros kv Hin s0. rewrite sg_ext_yield in Hin. cbn in Hin. apply elem_of_list_fmap in Hin as ([k z] & -> & Hin%elem_of_map_to_list). cbn.
      rewrite parse_format by eauto. done. }
  erewrite bind_ok.
  2:{ apply (for_each_load _ (fun f s => s <| st_dollar; d_recipients ::= f |>) (fun kv => default (0, ""%string) (parse_key kv.1)) (fun kv => kv.2)); [done|by intros [? [] ? ? ?]|].
      intros kv Hin s0. rewrite sg_recipients in Hin. cbn in Hin. apply elem_of_list_fmap in Hin as ([k z] & -> & Hin%elem_of_map_to_list). cbn.
      rewrite parse_format by eauto. done. }
  erewrite bind_ok.
  2:{ apply (for_each_load _ (fun f s => s <| st_dollar; d_retry ::= f |>) (fun kv => default (0, ""%string) (parse_key kv.1)) (fun kv => default 0 kv.2)); [done|by intros [? [] ? ? ?]|].
      intros kv Hin s0. rewrite sg_retry in Hin. cbn in Hin. apply elem_of_list_fmap in Hin as ([k z] & -> & Hin%elem_of_map_to_list). cbn.
      unfold bind at 1. cbn. rewrite parse_format by eauto. done. }
  erewrite bind_ok by done. erewrite bind_ok by done.
  erewrite bind_ok.
  2:{ apply (for_each_load _ (fun f s => s <| st_portal; p_peers ::= f |>) fst snd); [done|by intros [? ? [] ? ?]|done]. }
  erewrite bind_ok.
  2:{ apply (for_each_load _ (fun f s => s <| st_portal; p_paths ::= f |>) id (fun _ => true)); [done|by intros [? ? [] ? ?]|done]. }
  erewrite bind_ok by done.
  erewrite bind_ok.
  2:{ apply (for_each_load _ (fun f s => s <| st_vaults; v_positions ::= f |>) (fun avp => (avp.1.1, avp.1.2, pos_time avp.2)) snd); [done|by intros [? ? ? [] ?]|done]. }
  erewrite bind_ok.
  2:{ apply (for_each_load _ (fun f s => s <| st_vaults; v_rewards ::= f |>) rw_index id); [done|by intros [? ? ? [] ?]|done]. }
  erewrite bind_ok by done. erewrite bind_ok by done.
  erewrite bind_ok.
  2:{ rewrite sg_collector. cbn. rewrite (codec_roundtrip c Hco). done. }
  erewrite bind_ok by done. erewrite bind_ok by done.
  unfold modify, imported.
  pose proof (load_eq (fun kv => default ModuleA (c_dec c kv.1)) (fun kv => default 0 kv.2) (g_principal g) (d_principal (st_dollar s))) as E1.
  pose proof (load_eq (fun kv => default (0, ""%string) (parse_key kv.1)) (fun kv => default 0 kv.2) (g_ext_yield g) (d_ext_yield (st_dollar s))) as E2.
  pose proof (load_eq (fun kv => default (0, ""%string) (parse_key kv.1)) (fun kv => kv.2) (g_recipients g) (d_recipients (st_dollar s))) as E3.
  pose proof (load_eq (fun kv => default (0, ""%string) (parse_key kv.1)) (fun kv => default 0 kv.2) (g_retry g) (d_retry (st_dollar s))) as E4.
  pose proof (load_eq fst snd (g_peers g) (p_peers (st_portal s))) as E5.
  pose proof (load_eq id (fun _ => true) (g_paths g) (only_true (p_paths (st_portal s)))) as E6.
  pose proof (load_eq (fun avp => (avp.1.1, avp.1.2, pos_time avp.2)) snd (g_positions g) (v_positions (st_vaults s))) as E7.
  pose proof (load_eq rw_index id (g_rewards g) (v_rewards (st_vaults s))) as E8.
  set (F1 := foldl _ ∅ (g_principal g)) in E1. set (F2 := foldl _ ∅ (g_ext_yield g)) in E2. set (F3 := foldl _ ∅ (g_recipients g)) in E3.
  set (F4 := foldl _ ∅ (g_retry g)) in E4. set (F5 := foldl _ ∅ (g_peers g)) in E5. set (F6 := foldl _ ∅ (g_paths g)) in E6.
  set (F7 := foldl _ ∅ (g_positions g)) in E7. set (F8 := foldl _ ∅ (g_rewards g)) in E8.
  transitivity (Ok (mk_state b (mk_dollar (g_paused g) (g_index g) F1 (g_stats g) F2 F3 F4) (mk_portal (g_owner g) (g_portal_paused g) F5 F6 (g_nonce g))
    (mk_vaults (g_vaults_paused g) (g_ended g) (v_collector (st_vaults s)) F7 (g_total_flex g) F8 (g_vstats g)) w) tt); [reflexivity|].
  clearbody F1 F2 F3 F4 F5 F6 F7 F8. rewrite E1, E2, E3, E4, E5, E6, E7, E8; clear E1 E2 E3 E4 E5 E6 E7 E8.
  { rewrite sg_paused, sg_index, sg_stats, sg_owner, sg_portal_paused, sg_nonce, sg_vaults_paused, sg_ended, sg_vstats, sg_total_flex.
    cbn. by destruct s as [? [] [] [] ?]. }
  - intros r Hin. rewrite sg_rewards in Hin. cbn in Hin. apply elem_of_list_fmap in Hin as ([k r'] & -> & Hin%elem_of_map_to_list). cbn.
    destruct (Hk _ _ Hin) as [-> _]. done.
  - intros k r Hr. exists r. rewrite sg_rewards. split; [|by destruct (Hk _ _ Hr)]. cbn. apply elem_of_list_fmap. exists (k, r). split; [done|by apply elem_of_map_to_list].
  - intros x Hin. rewrite sg_positions in Hin. cbn in Hin. apply elem_of_list_fmap in Hin as ([[[a v] t] q] & -> & Hin%elem_of_map_to_list). cbn.
    destruct (Hpm _ _ Hin) as [-> _]. done.
  - intros [[a v] t] q Hq. exists (a, v, q). rewrite sg_positions. split; [|cbn; by destruct (Hpm _ _ Hq) as [-> _]].
    cbn. apply elem_of_list_fmap. exists ((a, v, t), q). split; [done|by apply elem_of_map_to_list].
  - intros k Hin. rewrite sg_paths in Hin. cbn in Hin. apply elem_of_list_omap in Hin as ([k' b'] & Hin%elem_of_map_to_list & E). cbn in E.
    destruct b'; [|done]. injection E as ->. apply map_filter_lookup_Some. done.
  - intros k b0 [Hin Hb]%map_filter_lookup_Some. cbn in Hb. subst b0. exists k. split; [|done]. rewrite sg_paths. cbn. apply elem_of_list_omap. exists (k, true). split; [by apply elem_of_map_to_list|done].
  - intros [k v] Hin. rewrite sg_peers in Hin. cbn in Hin. by apply elem_of_map_to_list in Hin.
  - intros k v Hin. exists (k, v). rewrite sg_peers. split; [cbn; by apply elem_of_map_to_list|done].
  - intros x Hin. rewrite sg_retry in Hin. cbn in Hin. apply elem_of_list_fmap in Hin as ([k z] & -> & Hin%elem_of_map_to_list). cbn. by rewrite parse_format by eauto.
  - intros k z Hz. exists (format_key k, Some z). rewrite sg_retry. split; [|cbn; by rewrite parse_format by eauto]. cbn. apply elem_of_list_fmap. exists (k, z). split; [done|by apply elem_of_map_to_list].
  - intros x Hin. rewrite sg_recipients in Hin. cbn in Hin. apply elem_of_list_fmap in Hin as ([k z] & -> & Hin%elem_of_map_to_list). cbn. by rewrite parse_format by eauto.
  - intros k z Hz. exists (format_key k, z). rewrite sg_recipients. split; [|cbn; by rewrite parse_format by eauto]. cbn. apply elem_of_list_fmap. exists (k, z). split; [done|by apply elem_of_map_to_list].
  - intros x Hin. rewrite sg_ext_yield in Hin. cbn in Hin. apply elem_of_list_fmap in Hin as ([k z] & -> & Hin%elem_of_map_to_list). cbn. by rewrite parse_format by eauto.
  - intros k z Hz. exists (format_key k, Some z). rewrite sg_ext_yield. split; [|cbn; by rewrite parse_format by eauto]. cbn. apply elem_of_list_fmap. exists (k, z). split; [done|by apply elem_of_map_to_list].
  - intros x Hin. rewrite sg_principal in Hin. cbn in Hin. apply elem_of_list_fmap in Hin as ([k z] & -> & Hin%elem_of_map_to_list). cbn. by rewrite (codec_roundtrip c Hco).
  - intros k z Hz. exists (c_enc c k, Some z). rewrite sg_principal. split; [|cbn; by rewrite (codec_roundtrip c Hco)]. cbn. apply elem_of_list_fmap. exists (k, z). split; [done|by apply elem_of_map_to_list].
Qed.

(** * Reachable states *)
Theorem genesis_roundtrip c s g : chain_ok c -> reachable c s -> tidy_keys s -> same_genesis g (export_genesis c s) ->
  forall b w, exists s', init_genesis c g (blank b w) = Ok s' tt /\
    st_dollar s' = st_dollar s /\ st_vaults s' = st_vaults s /\ st_bank s' = b /\ st_world s' = w /\
    p_owner (st_portal s') = p_owner (st_portal s) /\ p_paused (st_portal s') = p_paused (st_portal s) /\
    p_peers (st_portal s') = p_peers (st_portal s) /\ p_nonce (st_portal s') = p_nonce (st_portal s) /\
    forall k, p_paths (st_portal s') !! k = Some true <-> p_paths (st_portal s) !! k = Some true.
Proof.
  intros Hc Hr Ht Hg b w. exists (imported s b w). split.
  - apply import_export; auto; [apply Hc|apply pos_wf_pmap, (winv_reachable _ _ Hc Hr)|by apply (kinv_reachable c)].
  - repeat (split; [done|]). intros k. cbn. unfold only_true. rewrite map_filter_lookup_Some. cbn. tauto.
Qed.
Theorem tidy_history c s0 l : chain_ok c -> fresh c s0 -> (forall k, is_Some (d_recipients (st_dollar s0) !! k) -> tidy_key k) ->
  Forall tidy_op l -> let s := run c s0 l in
  (forall k, is_Some (d_recipients (st_dollar s) !! k) -> tidy_key k) /\ (forall k b, p_paths (st_portal s) !! k = Some b -> b = true).
Proof.
  intros Hc Hf H0 Hl. cbn zeta.
  enough (HG : forall l s, winv c s -> (forall k, is_Some (d_recipients (st_dollar s) !! k) -> tidy_key k) ->
    (forall k b, p_paths (st_portal s) !! k = Some b -> b = true) -> Forall tidy_op l ->
    (forall k, is_Some (d_recipients (st_dollar (run c s l)) !! k) -> tidy_key k) /\ (forall k b, p_paths (st_portal (run c s l)) !! k = Some b -> b = true)).
  { apply HG; auto; [by apply winv_fresh|]. intros k b. by rewrite (fresh_paths _ _ Hf), lookup_empty. }
  clear - Hc. induction l as [|o l IH]; intros s W H1 H2 Hl; [done|]. apply Forall_cons in Hl as [Ho Hl]. rewrite run_cons.
  destruct (step_cases c s o) as [E|E]; [rewrite E; auto|].
  apply IH; auto; [by eapply winv_step| |].
  - destruct (administrative o) eqn:Ha.
    + apply admin_inv in E; [|done]. generalize (step c s o), E. clear E. intros s' E. destruct o; try discriminate; cbn in E; decompose [and] E; subst s'; cbn; auto.
      intros k Hk%lookup_insert_is_Some'. destruct Hk as [<-|Hk]; [exact Ho|auto].
    + destruct (settings_op _ _ _ _ Hc W E Ha) as [E1 _ _]. unfold drest in E1. injection E1 as E1 E2. by rewrite E2.
  - destruct (administrative o) eqn:Ha.
    + apply admin_inv in E; [|done]. generalize (step c s o), E. clear E. intros s' E. destruct o; try discriminate; cbn in E; decompose [and] E; subst s'; cbn; auto.
      intros k b [[_ <-]|[_ ?]]%lookup_insert_Some; [exact Ho|eauto].
    + destruct (settings_op _ _ _ _ Hc W E Ha) as [_ _ E1]. by rewrite E1.
Qed.
Theorem genesis_exact c s0 l g : chain_ok c -> fresh c s0 -> (forall k, is_Some (d_recipients (st_dollar s0) !! k) -> tidy_key k) ->
  Forall tidy_op l -> let s := run c s0 l in same_genesis g (export_genesis c s) ->
  forall b w, init_genesis c g (blank b w) = Ok (mk_state b (st_dollar s) (st_portal s) (st_vaults s) w) tt.
Proof.
  intros Hc Hf H0 Hl s Hg b w. assert (Hr : reachable c s) by (by exists s0, l).
  destruct (tidy_history c s0 l Hc Hf H0 Hl) as [T1 T2]. destruct (configured_reachable _ _ Hc Hr) as [_ C2 C3]. fold s in T1, T2.
  rewrite (import_export c s g b w); auto; [|apply Hc|apply pos_wf_pmap, (winv_reachable _ _ Hc Hr)|by apply (kinv_reachable c)|by split; [|split]; eauto].
  unfold imported. assert (Ep : only_true (p_paths (st_portal s)) = p_paths (st_portal s)).
  { apply map_eq. intros k. unfold only_true. destruct (p_paths (st_portal s) !! k) as [b'|] eqn:E.
    - apply map_filter_lookup_Some. split; [done|]. by eapply T2.
    - apply map_filter_lookup_None. by left. }
  rewrite Ep. by destruct (st_portal s).
Qed.

(** * The default genesis, the migration *)
Theorem default_panics c s : c_dec c "" = None -> init_genesis c default_genesis s = Panic.
Proof.
  intros H. unfold init_genesis, default_genesis. cbn. unfold bind, modify, ret, opt, panic. rewrite H. done.
Qed.
Theorem default_collector c a w : codec_ok c -> exists s, init_genesis c (default_with (c_enc c a)) (blank (mk_bank ∅ 0 0) w) = Ok s tt /\
  st_world s = w /\ st_bank s = mk_bank ∅ 0 0 /\
  st_dollar s = mk_dollar false (10 ^ 12) ∅ (mk_dstats 0 0 0) ∅ ∅ ∅ /\
  st_portal s = mk_portal "" false ∅ ∅ 0 /\
  st_vaults s = mk_vaults 0 false a ∅ 0 ∅ (mk_vstats 0 0 0 0 0) /\
  (a <> ModuleA -> a <> YieldA -> x_posted w = [] -> x_inflight w = [] -> x_acked w = [] -> x_tokens w = ∅ -> x_dispatched w = [] -> fresh c s).
Proof.
  intros Hco. eexists. split.
  - unfold init_genesis, default_with. cbn. unfold bind, modify, ret, opt, panic. rewrite (codec_roundtrip c Hco). reflexivity.
  - repeat split; try done.
Qed.
Theorem migration_keeps s t : match migrate1to2 (Some t) s with
  | Ok s' _ => ds_holders (d_stats (st_dollar s')) = s1_holders t /\ ds_principal (d_stats (st_dollar s')) = s1_principal t /\
      ds_yield (d_stats (st_dollar s')) = s1_yield t /\
      st_bank s' = st_bank s /\ st_portal s' = st_portal s /\ st_vaults s' = st_vaults s /\ st_world s' = st_world s /\
      d_paused (st_dollar s') = d_paused (st_dollar s) /\ d_recipients (st_dollar s') = d_recipients (st_dollar s) /\ d_principal (st_dollar s') = d_principal (st_dollar s) /\ 
      d_index (st_dollar s') = d_index (st_dollar s) /\ d_ext_yield (st_dollar s') = d_ext_yield (st_dollar s) /\ d_retry (st_dollar s') = d_retry (st_dollar s)
  | _ => False
  end.
Proof. cbn. auto 20. Qed.
