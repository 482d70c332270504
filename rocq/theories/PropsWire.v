(** C14 and C15, byte by byte. *)
From Verif Require Import Spec Concrete WireP.

(** Every delivery that succeeds: the exact bytes it must consist of and what it
    did. [sl_buf] is the array behind the payload; nothing of it is looked at
    except these bytes. The decimals byte [d] and bytes after the token are
    ignored, and the fields of an index message may lie beyond the end of its
    payload (as in the code, which slices without a check). *)
Theorem C14_bytes : forall c s s' x bz, chain_ok c -> reachable c s -> succeeds_with c s (OpDeliver x bz) s' ->
  exists v pr id sender body extra tail,
    c_vaa c bz = Some v /\ va_digest v ∉ x_vaas (st_world s) /\ p_peers (st_portal s) !! va_chain v = Some pr /\ va_emitter v = pr_transceiver pr /\
    wide (pr_manager pr) /\ wide (manager_word c) /\ wide id /\ wide sender /\ 66 + blen body < 65536 /\ blen extra < 65536 /\
    sl_buf (va_payload v) = wire (pr_manager pr) (manager_word c) id sender body extra ++ tail /\
    ((exists d amount source recipient index rest, wide source /\ wide recipient /\ 0 <= amount < 2 ^ 64 /\ - 2 ^ 63 <= index < 2 ^ 63 /\
        body = [Byte.x99; Byte.x4e; Byte.x54; Byte.x54; d] ++ digits 8 amount ++ source ++ recipient ++ digits 2 (c_chain c) ++
               digits 2 (40 + blen rest) ++ digits 8 index ++ token_word c ++ rest /\
        let r := c_acct c (drop 12 recipient) in
        let not_collecting b := AUser b <> v_collector (st_vaults s) \/ v_ended (st_vaults s) = false in
        r <> ModuleA /\ c_blocked c r = false /\ current_index s' = Z.max index (current_index s) /\
        (r <> YieldA -> bal s r + amount <= bal s' r) /\
        (forall b, r = AUser b -> not_collecting b ->
           bal s' r = bal s r + amount /\ prin s' r = prin s r + floor_div (amount * unit_index) (current_index s')) /\
        (forall b, r <> AUser b -> not_collecting b -> bal s' (AUser b) = bal s (AUser b) /\ prin s' (AUser b) = prin s (AUser b))) \/
     (exists index rest, current_index s < index < 2 ^ 63 /\ current_index s' = index /\ take 4 body = [Byte.x4d; Byte.x30; Byte.x49; Byte.x54] /\
        body ++ digits 2 (blen extra) ++ extra ++ tail = index_bytes index (c_chain c) ++ rest) \/
     (take 4 body <> [Byte.x99; Byte.x4e; Byte.x54; Byte.x54] /\ take 4 body <> [Byte.x4d; Byte.x30; Byte.x49; Byte.x54] /\
        s' = s <| st_world; x_vaas ::= union {[va_digest v]} |>)).
Proof. exact delivery_bytes. Qed.
Print Assumptions C14_bytes.

(** 2000 to bob with 18 decimals and two bytes after the token; an index message
    followed by a byte; a message of another kind. *)
Definition odd_token_vaa : bytes :=
  mk_vaa_bytes 9 ([Byte.x99; Byte.x4e; Byte.x54; Byte.x54; Byte.x12] ++ digits 8 2000 ++ replicate 32 Byte.x55 ++ (replicate 12 Byte.x00 ++ raw0 bob) ++
    digits 2 4009 ++ digits 2 42 ++ digits 8 1200000000000 ++ token_word cfg0 ++ [Byte.x01; Byte.x02]).
Definition long_index_vaa : bytes := mk_vaa_bytes 9 (index_bytes 1200000000000 4009 ++ [Byte.x07]).
Definition other_vaa : bytes := mk_vaa_bytes 9 [Byte.x4d; Byte.x30; Byte.x49; Byte.x55; Byte.x00].
Example C14_bytes_ex : reachable cfg0 st2 /\
  (let s := after st2 (OpDeliver allok odd_token_vaa) in bal s bob = 502000 /\ current_index s = 1200000000000 /\ prin s bob = 501666) /\
  current_index (after st2 (OpDeliver allok long_index_vaa)) = 1200000000000 /\
  succeeds cfg0 st2 (OpDeliver allok other_vaa) = true /\
  (let s := after st2 (OpDeliver allok other_vaa) in current_index s = current_index st2 /\ supply s = supply st2 /\ succeeds cfg0 s (OpDeliver allok other_vaa) = false).
Proof. split; [exact reach2|]. vm_compute. repeat split. Qed.
