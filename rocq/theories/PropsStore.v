(** C66: the raw store under the collections. *)
From Verif Require Import Spec Store StoreP TypedP Concrete PropsVaults PropsRewards PropsExt.

(** * C66 *)
Theorem C66_schema : build schema = true /\
  (forall k k' r r', prefix_of k ++ r = prefix_of k' ++ r' -> k = k' /\ r = r') /\
  (forall t n p n' p' r r', build t = true -> (n, p) ∈ t -> (n', p') ∈ t -> n <> n' -> p ++ r <> p' ++ r').
Proof. exact (conj schema_builds (conj prefix_split build_keys)). Qed.
Print Assumptions C66_schema.
(** The check runs on every pair, in both directions: a prefix and
    a longer one are refused in either order. *)
Example C66_schema_ex : length schema = length layout /\
  build [("a"%string, [Byte.x01]); ("b"%string, [Byte.x01; Byte.x02])] = false /\
  build [("a"%string, [Byte.x01; Byte.x02]); ("b"%string, [Byte.x01])] = false /\
  build [("a"%string, [Byte.x01; Byte.x02]); ("b"%string, [Byte.x02])] = true.
Proof. vm_compute. auto. Qed.
Theorem C66_keys : forall c k1 k2, fits c k1 -> fits c k2 -> told_apart c k1 k2 ->
  raw_key c k1 = raw_key c k2 -> k1 = k2.
Proof. exact raw_key_inj. Qed.
Print Assumptions C66_keys.
Theorem C66_store : forall c s, storable c s ->
  (forall k, content s k <> None -> store c s !! raw_key c k = content s k) /\
  (forall b v, store c s !! b = Some v -> exists k, content s k = Some v /\ raw_key c k = b) /\
  (forall s', storable c s' -> (forall k k', content s k <> None -> content s' k' <> None -> told_apart c k k') ->
    store c s = store c s' -> forall k, content s k = content s' k).
Proof.
  exact (fun c s H => conj (fun k => store_at c s k H)
    (conj (fun b v => proj1 (store_lookup c s b v H)) (fun s' H' => store_content c s s' H H'))).
Qed.
Print Assumptions C66_store.
Theorem C66_walk : forall c s k, storable c s ->
  NoDup (walk k (store c s)).*1 /\
  (forall b v, (b, v) ∈ walk k (store c s) <-> exists i, collection_of i = k /\ content s i = Some v /\ raw_key c i = b).
Proof. exact (fun c s k H => conj (walk_nodup _ _ _) (fun b v => elem_walk c s k b v H)). Qed.
Print Assumptions C66_walk.
Theorem C66_positions : forall c s a v, storable c s -> addressable c s a -> fits_i32 v ->
  walk_prefix CByProviderAndVault (sized_key (c_raw c a) ++ int32_key v) (store c s) =
    ((fun tp => (raw_key c (KByProviderAndVault a v tp.1), VNone)) <$> position_entries s a v) /\
  (forall t p, (t, p) ∈ position_entries s a v -> store c s !! raw_key c (KPosition a v t) = Some (VPosition p)) /\
  (forall b w, (b, w) ∈ walk_prefix CByProvider (sized_key (c_raw c a)) (store c s) <->
    w = VNone /\ exists v t p, positions s !! (a, v, t) = Some p /\ b = raw_key c (KByProvider a v t)).
Proof.
  exact (fun c s a v H A F => conj (positions_walked c s a v H A F)
    (conj (fun t p => stored_position c s a v t p H) (fun b w => provider_walked c s a b w H A))).
Qed.
Print Assumptions C66_positions.
Theorem C66_rewards : forall c s i, storable c s -> fits_i64 i ->
  walk_after CRewards (int64_key i) (store c s) = (fun ir => (raw_key c (KReward ir.1), VReward ir.2)) <$> rewards_above s i.
Proof. exact rewards_walked. Qed.
Print Assumptions C66_rewards.
Theorem C66_recipients : forall c s p, storable c s -> fits_i32 p ->
  walk_prefix CRecipients (int32_key p) (store c s) =
  (fun ir => (raw_key c (KRecipient p ir.1), VString ir.2)) <$> recipients_of s p.
Proof. exact recipients_walked. Qed.
Print Assumptions C66_recipients.
Theorem C66_typed : forall c s0 l, chain_ok c -> fresh c s0 ->
  (forall k, is_Some (d_recipients (st_dollar s0) !! k) -> fits_i32 k.1) -> Forall typed_op l -> let s := run c s0 l in
  - 2 ^ 63 <= x_now (st_world s0) -> x_now (st_world s) < 2 ^ 63 ->
  (forall a v t, is_Some (positions s !! (a, v, t)) -> Z.of_nat (length (c_raw c a)) <= 255) ->
  forall k, content s k <> None -> fits c k.
Proof. exact typed_keys. Qed.
Print Assumptions C66_typed.

(** The chain of the other examples, with different addresses for its module accounts. *)
Definition raw1 (a : addr) : bytes :=
  match a with
  | AMod n => if decide (a = YieldA) then raw_yield else if decide (a = ManagerA) then raw0 ManagerA else Byte.xff :: bytes_of_string n
  | AEscrow p ch => Byte.xfe :: bytes_of_string p ++ Byte.x00 :: bytes_of_string ch
  | AUser b => b
  end.
Definition cfg1 : config := {|
  c_denom := c_denom cfg0; c_authority := c_authority cfg0; c_min_lock := c_min_lock cfg0; c_min_unlock := c_min_unlock cfg0;
  c_dec := dec0; c_enc := enc0; c_raw := raw1; c_acct := acct0; c_blocked := c_blocked cfg0;
  c_chain := c_chain cfg0; c_vaa := vaa0; c_hex := hex0; c_keccak := fun bs => bs |}.
Definition st7 : state := run cfg1 init0 (ops4 ++ ops_ext).
(** Everything is stored, and the walks give alice's staked positions by age, the
    records above an index by index and the channels with a recipient by name. *)
Definition last8 (kv : bytes * value) : Z := be_decode (drop (length kv.1 - 8) kv.1) - 2 ^ 63.
Example C66_ex : storable cfg1 st7 /\ size (store cfg1 st7) = 46%nat /\ length (items st7) = 46%nat /\
  addressable cfg1 st7 alice /\
  last8 <$> walk_prefix CByProviderAndVault (sized_key (raw1 alice) ++ int32_key STAKED) (store cfg1 st7) = [1000; 1010] /\
  length (walk_prefix CByProvider (sized_key (raw1 alice)) (store cfg1 st7)) = 4%nat /\
  last8 <$> walk CRewards (store cfg1 st7) = [1100000000000; 1200000000000; 1300000000000] /\
  last8 <$> walk_after CRewards (int64_key 1200000000000) (store cfg1 st7) = [1300000000000] /\
  length (walk_prefix CRecipients (int32_key HYPERLANE) (store cfg1 st7)) = 2%nat /\ length (walk CRecipients (store cfg1 st7)) = 3%nat.
Proof.
  split; [apply storableb_spec; vm_compute; reflexivity|]. split; [vm_compute; reflexivity|]. split; [vm_compute; reflexivity|].
  split; [apply addressable_stored with (k := KPosition alice STAKED 1000); [apply storableb_spec; vm_compute; reflexivity|done|vm_compute; discriminate|done]|].
  split_and!; vm_compute; reflexivity.
Qed.
(** The history of the example is one of typed messages. *)
Lemma chain1_ok : chain_ok cfg1.
Proof. pose proof codec0_ok as [H1 H2 H3 H4]. constructor; [constructor; [exact H1|exact H2|exact H3|done]|done|done|done|done|done]. Qed.
Example C66_typed_ex : chain_ok cfg1 /\ fresh cfg1 init0 /\ Forall typed_op (ops4 ++ ops_ext) /\
  d_recipients (st_dollar init0) = ∅ /\ x_now (st_world init0) = 1000 /\ x_now (st_world st7) < 2 ^ 63 /\
  forallb (fun kp : addr * Z * Z * position => Z.of_nat (length (raw1 kp.1.1.1)) <=? 255) (map_to_list (positions st7)) = true /\
  length (map_to_list (positions st7)) = 6%nat.
Proof.
  split; [apply chain1_ok|]. split; [constructor; done|]. split.
  { assert (E : forallb (fun o => match o with
      | OpSetYieldRecipient _ p _ _ => (- 2 ^ 31 <=? p) && (p <? 2 ^ 31)
      | OpSetPeer _ ch _ _ | OpSetBridgingPath _ ch _ _ => (0 <=? ch) && (ch <? 2 ^ 16)
      | _ => true end) (ops4 ++ ops_ext) = true) by (vm_compute; reflexivity).
    rewrite forallb_forall in E. apply Forall_forall. intros o Ho%elem_of_list_In%E. unfold fits_i32, fits_u16.
    destruct o; try exact I; cbn [typed_op]; unfold fits_i32, fits_u16; apply andb_true_iff in Ho; lia. }
  split_and!; vm_compute; reflexivity.
Qed.
(** Without the length in front of an address, two accounts could share a position
    key; without the sign bit, an older position of negative time would come last. *)
Example C66_keys_ex : int64_key (-1) = [Byte.x7f; Byte.xff; Byte.xff; Byte.xff; Byte.xff; Byte.xff; Byte.xff; Byte.xff] /\
  bytes_ltb (int64_key (-1)) (int64_key 0) = true /\ bytes_ltb (be_encode 8 (-1)) (be_encode 8 0) = false /\
  raw_key cfg1 (KRecipient HYPERLANE "a") = bytes_of_string "yield_recipient/" ++ [Byte.x80; Byte.x00; Byte.x00; Byte.x01; Byte.x61] /\
  fits cfg1 (KPosition alice STAKED 1000) /\ told_apart cfg1 (KPosition alice STAKED 1000) (KPosition bob STAKED 1000) /\
  build [("a", bytes_of_string "stats"); ("b", bytes_of_string "stats/")]%string = false.
Proof.
  split_and!; try (vm_compute; reflexivity); try (vm_compute; split_and!; congruence).
  intros a b [= <-] [= <-] H. vm_compute in H. discriminate H.
Qed.
