(** C15, C17, C20-C22: tokens in and out, message codecs. *)
From Verif Require Import Spec Concrete CodecP PortalP.

(** * C15 *)
Theorem C15_credit : forall c s s' x bz v from to id sender extra source recipient token amount index chain,
  chain_ok c -> reachable c s -> succeeds_with c s (OpDeliver x bz) s' ->
  c_vaa c bz = Some v -> slice_ok (va_payload v) ->
  sl_bytes (va_payload v) = token_wire from to id sender extra source recipient token amount index chain ->
  wide from -> wide to -> wide id -> wide sender -> wide source -> wide recipient -> wide token -> blen extra < 65536 ->
  0 <= amount < 2 ^ 64 -> - 2 ^ 63 <= index < 2 ^ 63 -> 0 <= chain < 2 ^ 16 ->
  let r := c_acct c (drop 12 recipient) in
  let not_collecting b := AUser b <> v_collector (st_vaults s) \/ v_ended (st_vaults s) = false in
  chain = c_chain c /\ token = token_word c /\ r <> ModuleA /\ c_blocked c r = false /\
  current_index s' = Z.max index (current_index s) /\
  (r <> YieldA -> bal s r + amount <= bal s' r) /\
  (forall b, r = AUser b -> not_collecting b ->
     bal s' r = bal s r + amount /\ prin s' r = prin s r + floor_div (amount * unit_index) (current_index s')) /\
  (forall b, r <> AUser b -> not_collecting b -> bal s' (AUser b) = bal s (AUser b) /\ prin s' (AUser b) = prin s (AUser b)).
Proof. exact token_credits. Qed.
Print Assumptions C15_credit.
(** Such a message from the peer to this chain is accepted when it carries no new index. *)
Theorem C15_accepted : forall c s x bz v pr from to id sender extra source recipient token amount index chain,
  chain_ok c -> reachable c s -> p_paused (st_portal s) = false ->
  c_vaa c bz = Some v -> va_digest v ∉ x_vaas (st_world s) -> slice_ok (va_payload v) ->
  p_peers (st_portal s) !! va_chain v = Some pr -> va_emitter v = pr_transceiver pr -> from = pr_manager pr -> to = manager_word c ->
  sl_bytes (va_payload v) = token_wire from to id sender extra source recipient token amount index chain ->
  wide id -> wide sender -> wide source -> wide recipient -> token = token_word c -> blen extra < 65536 ->
  0 <= amount < 2 ^ 64 -> - 2 ^ 63 <= index <= current_index s -> chain = c_chain c ->
  let r := c_acct c (drop 12 recipient) in
  ordinary_account r -> c_blocked c r = false -> issue_in_range s r amount ->
  exists s', succeeds_with c s (OpDeliver x bz) s'.
Proof. exact token_accepted. Qed.
Print Assumptions C15_accepted.
(** 2000 to bob with a new index in a state at 1.1; then 77 at an old index. *)
Example C15_credit_ex :
  let s := after st2 (issue 9 bob 2000 1200000000000) in
  bal s bob = 502000 /\ current_index s = 1200000000000 /\ prin s bob = 501666 /\ bal s alice = bal st2 alice /\
  let s2 := after s (issue 10 bob 77 e12) in
  bal s2 bob = 502077 /\ current_index s2 = 1200000000000 /\
  option_map (fun v => sl_bytes (va_payload v)) (vaa0 (token_vaa 9 bob 2000 1200000000000)) =
    Some (token_wire eth_manager (manager_word cfg0) (be_encode 32 9) (replicate 32 Byte.x44) [] (replicate 32 Byte.x55)
            (replicate 12 Byte.x00 ++ raw0 bob) (token_word cfg0) 2000 1200000000000 4009).
Proof. vm_compute. repeat split; reflexivity. Qed.

(** * C17 *)
Theorem C17_transfer : forall c s s' ps g chain tok rc amount, chain_ok c -> reachable c s ->
  succeeds_with c s (OpTransfer ps g chain tok rc amount) s' ->
  exists b x pr, c_dec c g = Some (AUser b) /\ amount = Some x /\ 0 <= x < 2 ^ 63 /\
    p_peers (st_portal s) !! chain = Some pr /\ wide (pr_manager pr) /\ wide rc /\ wide tok /\ blen (c_raw c (AUser b)) <= 32 /\
    supply s' = supply s - x /\ (forall a, bal s' a = bal s a - on a (AUser b) x) /\
    x_posted (st_world s') = x_posted (st_world s) ++
      [(token_wire (manager_word c) (pr_manager pr) (replicate 28 Byte.x00 ++ digits 4 (p_nonce (st_portal s)))
          (replicate (32 - length (c_raw c (AUser b))) Byte.x00 ++ c_raw c (AUser b)) []
          (token_word c) rc tok x (current_index s) chain, p_nonce (st_portal s))].
Proof. exact transfer_posts. Qed.
Print Assumptions C17_transfer.
(** The other side reads the same values from it. *)
Theorem C17_readable : forall c s s' ps g chain tok rc amount, chain_ok c -> reachable c s -> 0 <= chain < 2 ^ 16 ->
  succeeds_with c s (OpTransfer ps g chain tok rc amount) s' ->
  exists b x pr, c_dec c g = Some (AUser b) /\ amount = Some x /\ 0 <= x < 2 ^ 63 /\
    p_peers (st_portal s) !! chain = Some pr /\
    supply s' = supply s - x /\ (forall a, bal s' a = bal s a - on a (AUser b) x) /\
    exists msg, x_posted (st_world s') = x_posted (st_world s) ++ [(msg, p_nonce (st_portal s))] /\
    exists t m k ix, parse_transceiver (sl_of msg) = POk t /\ parse_manager (tp_manager t) = POk m /\
      parse_ntt (mp_payload m) = POk k /\ decode_additional (np_additional k) = POk ix /\
      sl_bytes (tp_source t) = manager_word c /\ sl_bytes (tp_recipient t) = pr_manager pr /\ sl_bytes (tp_payload t) = [] /\
      sl_bytes (mp_id m) = replicate 28 Byte.x00 ++ be_encode 4 (p_nonce (st_portal s)) /\
      sl_bytes (mp_sender m) = replicate (32 - length (c_raw c (AUser b))) Byte.x00 ++ c_raw c (AUser b) /\
      np_amount k = x /\ sl_bytes (np_source_token k) = token_word c /\ sl_bytes (np_to k) = rc /\ np_to_chain k = chain /\
      ix.1 = current_index s /\ sl_bytes ix.2 = tok.
Proof. exact transfer_burns. Qed.
Print Assumptions C17_readable.
Theorem C17_accepted : forall c s b chain tok rc x, chain_ok c -> reachable c s ->
  p_paused (st_portal s) = false -> is_Some (p_peers (st_portal s) !! chain) -> is_Some (p_paths (st_portal s) !! (chain, tok)) ->
  wide rc -> blen (c_raw c (AUser b)) <= 32 -> 0 <= x < 2 ^ 63 -> x <= bal s (AUser b) -> redeem_in_range s (AUser b) x ->
  exists s', succeeds_with c s (OpTransfer true (c_enc c (AUser b)) chain tok rc (Some x)) s'.
Proof. exact transfer_accepted. Qed.
Print Assumptions C17_accepted.
Example C17_transfer_ex :
  let o := OpTransfer true (enc0 alice) 2 eth_token (replicate 32 Byte.x66) (Some 1234) in
  let s := after st2 o in
  succeeds cfg0 st2 o = true /\ bal s alice = bal st2 alice - 1234 /\ supply s = supply st2 - 1234 /\ bal s bob = bal st2 bob /\
  match last (x_posted (st_world s)) with
  | Some (msg, n) => n = 0 /\ match decode_message (sl_of msg) with POk (DToken k) => tk_amount k = 1234 /\ tk_chain k = 2 | _ => False end
  | None => False
  end.
Proof. vm_compute. repeat split; reflexivity. Qed.

(** * C20 *)
Theorem C20_transceiver : forall m s, slice_ok s -> sl_bytes s = encode_transceiver m ->
  wide (tm_source m) -> wide (tm_recipient m) -> blen (tm_manager m) < 65536 -> blen (tm_payload m) < 65536 ->
  exists p, parse_transceiver s = POk p /\
    mk_tm (sl_bytes (tp_source p)) (sl_bytes (tp_recipient p)) (sl_bytes (tp_manager p)) (sl_bytes (tp_payload p)) = m /\
    slice_ok (tp_source p) /\ slice_ok (tp_recipient p) /\ slice_ok (tp_manager p) /\ slice_ok (tp_payload p).
Proof.
  intros m s H1 H2 H3 H4 H5 H6. destruct (transceiver_roundtrip m s H1 H2 H3 H4 H5 H6) as (p & ? & E1 & E2 & E3 & E4 & ?).
  exists p. rewrite E1, E2, E3, E4. destruct m. auto.
Qed.
Print Assumptions C20_transceiver.
Theorem C20_manager : forall m s, slice_ok s -> sl_bytes s = encode_manager m ->
  wide (mm_id m) -> wide (mm_sender m) -> blen (mm_payload m) < 65536 ->
  exists p, parse_manager s = POk p /\ mk_mm (sl_bytes (mp_id p)) (sl_bytes (mp_sender p)) (sl_bytes (mp_payload p)) = m /\
    slice_ok (mp_id p) /\ slice_ok (mp_sender p) /\ slice_ok (mp_payload p).
Proof.
  intros m s H1 H2 H3 H4 H5. destruct (manager_roundtrip m s H1 H2 H3 H4 H5) as (p & ? & E1 & E2 & E3 & ?).
  exists p. rewrite E1, E2, E3. destruct m. auto.
Qed.
Print Assumptions C20_manager.
Theorem C20_ntt : forall n s, slice_ok s -> sl_bytes s = encode_ntt n ->
  0 <= n_amount n < 2 ^ 64 -> wide (n_source_token n) -> wide (n_to n) -> 0 <= n_to_chain n < 2 ^ 16 -> blen (n_additional n) < 65536 ->
  exists p, parse_ntt s = POk p /\
    mk_ntt (np_amount p) (sl_bytes (np_source_token p)) (sl_bytes (np_to p)) (np_to_chain p) (sl_bytes (np_additional p)) = n /\
    slice_ok (np_source_token p) /\ slice_ok (np_to p) /\ slice_ok (np_additional p).
Proof.
  intros n s H1 H2 H3 H4 H5 H6 H7. destruct (ntt_roundtrip n s H1 H2 H3 H4 H5 H6 H7) as (p & ? & E1 & E2 & E3 & E4 & E5 & ?).
  exists p. rewrite E1, E2, E3, E4, E5. destruct n. auto.
Qed.
Print Assumptions C20_ntt.
Theorem C20_additional : forall i tok s, slice_ok s -> sl_bytes s = encode_additional i tok -> - 2 ^ 63 <= i < 2 ^ 63 -> wide tok ->
  exists t, decode_additional s = POk (i, t) /\ sl_bytes t = tok /\ slice_ok t.
Proof. exact additional_roundtrip. Qed.
Print Assumptions C20_additional.
Theorem C20_index : forall i d s, slice_ok s -> sl_bytes s = encode_index_payload i d -> - 2 ^ 63 <= i < 2 ^ 63 -> 0 <= d < 2 ^ 16 ->
  get_payload_type s = POk PTIndex /\ decode_index_payload s = POk (i, d).
Proof. exact index_roundtrip. Qed.
Print Assumptions C20_index.
Theorem C20_token : forall amount source to chain i tok s, slice_ok s ->
  sl_bytes s = encode_ntt (mk_ntt amount source to chain (encode_additional i tok)) ->
  0 <= amount < 2 ^ 64 -> wide source -> wide to -> 0 <= chain < 2 ^ 16 -> - 2 ^ 63 <= i < 2 ^ 63 -> wide tok ->
  get_payload_type s = POk PTToken /\
  exists t, decode_token_payload s = POk t /\ tk_amount t = amount /\ tk_index t = i /\ sl_bytes (tk_recipient t) = drop 12 to /\
    tk_chain t = chain /\ sl_bytes (tk_token t) = tok.
Proof. exact token_roundtrip. Qed.
Print Assumptions C20_token.
(** Accepted bytes are the encoding of what was parsed. *)
Theorem C20_manager_back : forall s p, slice_ok s -> parse_manager s = POk p ->
  encode_manager (mk_mm (sl_bytes (mp_id p)) (sl_bytes (mp_sender p)) (sl_bytes (mp_payload p))) = sl_bytes s /\
  wide (sl_bytes (mp_id p)) /\ wide (sl_bytes (mp_sender p)) /\ blen (sl_bytes (mp_payload p)) < 65536.
Proof. exact manager_reencode. Qed.
Print Assumptions C20_manager_back.
(** The decimals byte is ignored, and an empty additional payload may be left out or given the length 0. *)
Theorem C20_ntt_back : forall s p, slice_ok s -> parse_ntt s = POk p ->
  let n := mk_ntt (np_amount p) (sl_bytes (np_source_token p)) (sl_bytes (np_to p)) (np_to_chain p) (sl_bytes (np_additional p)) in
  (0 <= n_amount n < 2 ^ 64 /\ wide (n_source_token n) /\ wide (n_to n) /\ 0 <= n_to_chain n < 2 ^ 16 /\ blen (n_additional n) < 65536) /\
  exists d rest, sl_bytes s = ntt_prefix ++ [d] ++ rest /\
    (encode_ntt n = ntt_prefix ++ [byte_of_Z 6] ++ rest \/
     n_additional n = [] /\ encode_ntt n ++ be_encode 2 0 = ntt_prefix ++ [byte_of_Z 6] ++ rest).
Proof. exact ntt_reencode. Qed.
Print Assumptions C20_ntt_back.
(** The largest amount, an index near the top and an additional payload through all three layers. *)
Example C20_ex :
  match decode_message (sl_of (token_wire (replicate 32 Byte.x01) (replicate 32 Byte.x02) (replicate 32 Byte.x03) (replicate 32 Byte.x04)
    [Byte.x09; Byte.x08] (replicate 32 Byte.x05) (replicate 32 Byte.x06) (replicate 32 Byte.x07) (2 ^ 64 - 1) (2 ^ 63 - 1) 65535)) with
  | POk (DToken t) => tk_amount t = 2 ^ 64 - 1 /\ tk_index t = 2 ^ 63 - 1 /\ tk_chain t = 65535 /\ sl_bytes (tk_token t) = replicate 32 Byte.x07
  | _ => False
  end.
Proof. vm_compute. auto. Qed.

(** * C21 *)
(** Three malformed payloads that panic: a transceiver message cut after its
    prefix, an index payload of four bytes, a token payload with half an
    additional length (finding). *)
Definition short_transceiver : bytes := be_encode 2 2 ++ eth_transceiver ++ be_encode 4 9 ++ transceiver_prefix.
Definition short_index : bytes := mk_vaa_bytes 9 [Byte.x4d; Byte.x30; Byte.x49; Byte.x54].
Definition odd_token : bytes :=
  mk_vaa_bytes 9 (encode_ntt (mk_ntt 5 (replicate 32 Byte.x55) (replicate 12 Byte.x00 ++ raw0 bob) 4009 []) ++ [Byte.x00]).
Theorem C21_calm_refuted : exists c s, chain_ok c /\ reachable c s /\
  exists x bz1 bz2 bz3,
    (exists v, c_vaa c bz1 = Some v /\ slice_ok (va_payload v) /\ sl_bytes (va_payload v) = transceiver_prefix) /\
    exec c (OpDeliver x bz1) s = Panic /\ exec c (OpDeliver x bz2) s = Panic /\ exec c (OpDeliver x bz3) s = Panic.
Proof.
  exists cfg0, st1. split; [apply chain0_ok|]. split; [apply reach1|].
  exists allok, short_transceiver, short_index, odd_token. split.
  - exists (mk_vaa 2 eth_transceiver (sl_of transceiver_prefix) (be_encode 4 9)).
    split; [vm_compute; reflexivity|]. split; [vm_compute; split; congruence|vm_compute; reflexivity].
  - split; [vm_compute; reflexivity|]. split; vm_compute; reflexivity.
Qed.
Print Assumptions C21_calm_refuted.
(** Missing from the full statement: payloads that are not [well_shaped]. *)
Theorem C21_calm_partial : forall s, slice_ok s -> well_shaped (sl_bytes s) -> decode_message s <> PPanic.
Proof. exact decode_total. Qed.
Print Assumptions C21_calm_partial.
(** The decoding is the only place where the shape matters: otherwise a panic
    comes from applying a decoded token or index payload. *)
Theorem C21_source_partial : forall c x bz s, exec c (OpDeliver x bz) s = Panic ->
  exists v, c_vaa c bz = Some v /\
    (decode_message (va_payload v) = PPanic \/
     exists s1, (exists t, decode_message (va_payload v) = POk (DToken t) /\
                   mint c x (c_acct c (sl_bytes (tk_recipient t))) (tk_amount t) (tk_index t) s1 = Panic) \/
                (exists i ch, decode_message (va_payload v) = POk (DIndex i ch) /\ update_index c x i s1 = Panic)).
Proof. exact deliver_panics. Qed.
Print Assumptions C21_source_partial.
(** A well shaped message of unknown kind; an index payload one byte short read
    beyond its end into the enclosing array instead of failing. *)
Example C21_calm_partial_ex :
  (let bs := wire eth_manager eth_manager eth_manager eth_manager [Byte.x01; Byte.x02; Byte.x03; Byte.x04; Byte.x05] [Byte.x01] in
   well_shaped bs /\ decode_message (sl_of bs) = POk DUnknown) /\
  decode_message (sl_of (wire eth_manager eth_manager eth_manager eth_manager (take 13 (encode_index_payload 77 4009)) [Byte.x01])) = POk (DIndex 77 (4009 - 4009 mod 256)).
Proof.
  split; [|vm_compute; reflexivity]. cbv zeta. split; [|vm_compute; reflexivity].
  unfold well_shaped. split; [vm_compute; congruence|]. split; [vm_compute; congruence|].
  split; intros H; exfalso; revert H; vm_compute; congruence.
Qed.

(** * C22 *)
Theorem C22_digest : forall ch m ch' m', 0 <= ch < 2 ^ 16 -> 0 <= ch' < 2 ^ 16 ->
  wide (mm_id m) -> wide (mm_id m') -> wide (mm_sender m) -> wide (mm_sender m') ->
  digest_preimage ch m = digest_preimage ch' m' <-> ch = ch' /\ m = m'.
Proof. exact preimage_injective. Qed.
Print Assumptions C22_digest.
(** Without the sizes it fails: bytes may move from the id to the sender. *)
Example C22_digest_ex :
  digest_preimage 1 (mk_mm [Byte.x01] [] []) = digest_preimage 1 (mk_mm [] [Byte.x01] []) /\
  digest_preimage 1 (mk_mm eth_manager eth_token [Byte.x01]) <> digest_preimage 1 (mk_mm eth_manager eth_token [Byte.x02]).
Proof. split; vm_compute; congruence. Qed.
