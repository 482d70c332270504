(** Every byte of a delivered message that took effect. *)
From Verif Require Import Spec SendP CodecP TraceP InvP CoreP AdminP PortalP.
From Coq Require Import Lia.
Import Coq.Init.Byte.

(** * Reading a slice, including what lies between its end and its capacity *)
Lemma sl_cut s a b t : sl_sub s a b = Some t ->
  0 <= a <= b /\ drop (Z.to_nat a) (sl_buf s) = sl_bytes t ++ drop (Z.to_nat b) (sl_buf s) /\
  blen (sl_bytes t) = b - a /\ sl_buf t = drop (Z.to_nat a) (sl_buf s) /\ sl_len t = b - a.
Proof.
  unfold sl_sub. destruct ((0 <=? a) && (a <=? b) && (b <=? sl_cap s)) eqn:H; [|done]. intros [= <-].
  apply andb_true_iff in H as [H H3]. apply andb_true_iff in H as [H1 H2]. apply Z.leb_le in H1, H2, H3. unfold sl_cap in H3.
  cbn [sl_buf sl_len]. unfold sl_bytes. cbn [sl_buf sl_len]. split; [lia|]. split; [|split; [|done]].
  - symmetry. apply take_drop_app. lia.
  - unfold blen. rewrite take_length, drop_length. lia.
Qed.
Lemma uint_digits t n : blen (sl_bytes t) = Z.of_nat n -> digits n (sl_uint t) = sl_bytes t.
Proof. intros H. rewrite digits_encode. unfold sl_uint. assert (n = length (sl_bytes t)) as -> by (unfold blen in H; lia). apply be_encode_decode. Qed.
Lemma uint_range t n : blen (sl_bytes t) = Z.of_nat n -> 0 <= sl_uint t < 256 ^ Z.of_nat n.
Proof. intros H. unfold sl_uint. assert (n = length (sl_bytes t)) as -> by (unfold blen in H; lia). apply be_decode_range. Qed.
Lemma digits_i64 z : digits 8 (wrap_i64 z) = digits 8 z.
Proof.
  rewrite !digits_encode, <- (be_encode_mod 8 (wrap_i64 z)), <- (be_encode_mod 8 z). f_equal. unfold wrap_i64.
  change (256 ^ Z.of_nat 8) with (2 ^ 64). rewrite Zminus_mod_idemp_l. f_equal. lia.
Qed.
Lemma wrap_i64_range z : - 2 ^ 63 <= wrap_i64 z < 2 ^ 63.
Proof. unfold wrap_i64. pose proof (Z.mod_pos_bound (z + 2 ^ 63) (2 ^ 64) ltac:(lia)). lia. Qed.

Lemma transceiver_bytes s t : parse_transceiver s = POk t ->
  exists mlen tlen tail, sl_buf s = [x99; x45; xff; x10] ++ sl_bytes (tp_source t) ++ sl_bytes (tp_recipient t) ++ digits 2 mlen ++
      sl_bytes (tp_manager t) ++ digits 2 tlen ++ sl_bytes (tp_payload t) ++ tail /\
    sl_buf (tp_manager t) = sl_bytes (tp_manager t) ++ digits 2 tlen ++ sl_bytes (tp_payload t) ++ tail /\
    blen (sl_bytes (tp_manager t)) = mlen /\ blen (sl_bytes (tp_payload t)) = tlen /\ 0 <= mlen < 65536 /\ 0 <= tlen < 65536 /\ sl_wf (tp_manager t) /\
    wide (sl_bytes (tp_source t)) /\ wide (sl_bytes (tp_recipient t)).
Proof.
  intros H. unfold parse_transceiver in H. open_slice t0 H.
  destruct (bool_decide_reflect (sl_bytes t0 = transceiver_prefix)) as [HP|]; [|done]. cbn [negb] in H.
  open_slice t1 H. open_slice t2 H. open_slice t3 H. cbv zeta in H. open_slice t4 H. open_slice t5 H. open_slice t6 H. injection H as <-.
  cbn [tp_source tp_recipient tp_manager tp_payload].
  apply sl_cut in E as (_ & C0 & L0 & _). apply sl_cut in E0 as (_ & C1 & L1 & _). apply sl_cut in E1 as (_ & C2 & L2 & _).
  apply sl_cut in E2 as (_ & C3 & L3 & _). apply sl_cut in E3 as (O4 & C4 & L4 & B4 & N4). apply sl_cut in E4 as (_ & C5 & L5 & _). apply sl_cut in E5 as (O6 & C6 & L6 & _).
  pose proof (uint_digits t3 2 L3) as D3. pose proof (uint_range t3 2 L3) as R3. change (256 ^ Z.of_nat 2) with 65536 in R3.
  assert (L5' : blen (sl_bytes t5) = Z.of_nat 2) by (rewrite L5; lia).
  pose proof (uint_digits t5 2 L5') as D5. pose proof (uint_range t5 2 L5') as R5. change (256 ^ Z.of_nat 2) with 65536 in R5.
  exists (sl_uint t3), (sl_uint t5), (drop (Z.to_nat (70 + sl_uint t3 + 2 + sl_uint t5)) (sl_buf s)).
  rewrite D3, D5.
  assert (HB : sl_buf t4 = sl_bytes t4 ++ sl_bytes t5 ++ sl_bytes t6 ++ drop (Z.to_nat (70 + sl_uint t3 + 2 + sl_uint t5)) (sl_buf s)).
  { rewrite B4, C4, C5, C6. done. }
  split; [|split; [exact HB|split; [lia|split; [lia|split; [lia|split; [lia|split; [|split; [exact L1|exact L2]]]]]]]].
  - change (drop (Z.to_nat 0) (sl_buf s)) with (sl_buf s) in C0. etrans; [exact C0|]. rewrite HP. change transceiver_prefix with [x99; x45; xff; x10]. rewrite C1, C2, C3, <- B4, HB. done.
  - unfold sl_wf, sl_cap. rewrite N4. split; [lia|]. apply (f_equal length) in HB. rewrite HB, app_length. unfold blen in L4. lia.
Qed.

Lemma manager_bytes s m : sl_wf s -> parse_manager s = POk m ->
  sl_bytes s = sl_bytes (mp_id m) ++ sl_bytes (mp_sender m) ++ digits 2 (blen (sl_bytes (mp_payload m))) ++ sl_bytes (mp_payload m) /\
  wide (sl_bytes (mp_id m)) /\ wide (sl_bytes (mp_sender m)) /\ blen (sl_bytes (mp_payload m)) < 65536 /\
  sl_wf (mp_payload m) /\ sl_buf (mp_payload m) = drop 66 (sl_buf s).
Proof.
  intros Hw H. pose proof (manager_reencode _ _ Hw H) as (E & W1 & W2 & W3). unfold encode_manager in E. cbn [mm_id mm_sender mm_payload] in E.
  unfold wrap_u16 in E. rewrite (digits_wrap 2 16) in E by done.
  split; [by rewrite E|]. split; [done|]. split; [done|]. split; [done|].
  clear E. unfold parse_manager in H. destruct (Z.ltb_spec (sl_len s) 66) as [|Hl]; [done|].
  open_slice t0 H. open_slice t1 H. open_slice t2 H. open_slice t3 H.
  destruct (Z.eqb_spec (sl_len t3) (sl_uint t2)) as [He|]; [|done]. cbn [negb] in H. injection H as <-. cbn [mp_id mp_sender mp_payload] in *.
  unfold sl_from in E2. pose proof (sl_sub_inv _ _ _ _ E2 ltac:(lia) Hw) as (_ & W & _). split; [done|]. by apply sl_cut in E2 as (_ & _ & _ & ? & _).
Qed.

Lemma sl_from_bytes s a t : sl_from s a = Some t -> sl_bytes t = drop (Z.to_nat a) (sl_bytes s).
Proof.
  intros H. apply sl_cut in H as (O & C & L & B & N). unfold sl_bytes. rewrite B, N. rewrite skipn_firstn_comm. f_equal. lia.
Qed.
Lemma additional_bytes s i t : decode_additional s = POk (i, t) ->
  wide (sl_bytes t) /\ - 2 ^ 63 <= i < 2 ^ 63 /\ exists rest, sl_bytes s = digits 8 i ++ sl_bytes t ++ rest.
Proof.
  intros H. unfold decode_additional in H. destruct (Z.ltb_spec (sl_len s) 40) as [|Hl]; [done|].
  open_slice t0 H. open_slice t1 H. injection H as <- <-. apply sl_cut in E as (_ & C0 & L0 & _). apply sl_cut in E0 as (_ & C1 & L1 & _).
  split; [exact L1|]. split; [apply wrap_i64_range|]. exists (take (Z.to_nat (sl_len s) - 40) (drop 40 (sl_buf s))).
  rewrite digits_i64, (uint_digits _ 8 L0). unfold sl_bytes at 1.
  change (drop (Z.to_nat 0) (sl_buf s)) with (sl_buf s) in C0.
  transitivity (take (Z.to_nat (sl_len s)) (sl_bytes t0 ++ sl_bytes t1 ++ drop 40 (sl_buf s))).
  { f_equal. etrans; [exact C0|]. f_equal. exact C1. }
  unfold blen in *. rewrite take_app_ge by lia. f_equal. rewrite take_app_ge by lia. f_equal. f_equal. lia.
Qed.
(** A payload decoded as a token transfer whose token is not empty. *)
Lemma token_payload_bytes s k : sl_wf s -> decode_token_payload s = POk k -> sl_bytes (tk_token k) <> [] ->
  exists d source recipient rest, wide source /\ wide recipient /\ wide (sl_bytes (tk_token k)) /\
    sl_bytes (tk_recipient k) = drop 12 recipient /\ 0 <= tk_amount k < 2 ^ 64 /\ - 2 ^ 63 <= tk_index k < 2 ^ 63 /\ 0 <= tk_chain k < 2 ^ 16 /\
    sl_bytes s = [x99; x4e; x54; x54; d] ++ digits 8 (tk_amount k) ++ source ++ recipient ++ digits 2 (tk_chain k) ++
      digits 2 (40 + blen rest) ++ digits 8 (tk_index k) ++ sl_bytes (tk_token k) ++ rest.
Proof.
  intros Hw H Ht. unfold decode_token_payload in H.
  destruct (parse_ntt s) as [n|e|] eqn:EN; cbn [pbind] in H; [|by cbv in H|done].
  destruct (decode_additional (np_additional n)) as [[i tk]|e|] eqn:EA; cbn [pbind] in H; [| |done].
  2: { open_slice t0 H. injection H as <-. by cbn in Ht. }
  open_slice t0 H. injection H as <-. cbn [tk_amount tk_index tk_recipient tk_chain tk_token fst snd] in *.
  pose proof (ntt_reencode _ _ Hw EN) as ((A1 & A2 & A3 & A4 & A5) & d & rest & HB & HE). cbn [n_amount n_source_token n_to n_to_chain n_additional] in *.
  apply additional_bytes in EA as (W & HI & rest' & HA). unfold wide in W.
  assert (HL : blen (sl_bytes (np_additional n)) = 40 + blen rest').
  { rewrite HA. rewrite digits_encode. sizes. }
  assert (0 <= blen rest') by (unfold blen; lia).
  exists d, (sl_bytes (np_source_token n)), (sl_bytes (np_to n)), rest'.
  split; [exact A2|]. split; [exact A3|]. split; [exact W|]. split; [apply (sl_from_bytes _ _ _ E)|].
  split; [exact A1|]. split; [exact HI|]. split; [exact A4|].
  destruct HE as [HE|[HE _]]; [|rewrite HE in HL; unfold blen in HL; cbn in HL; lia].
  unfold encode_ntt in HE. cbn [n_amount n_source_token n_to n_to_chain n_additional] in HE.
  rewrite (proj2 (Z.ltb_lt 0 (blen (sl_bytes (np_additional n))))) in HE by lia. cbv iota in HE.
  apply app_inv_head in HE. apply app_inv_head in HE.
  rewrite HB, <- HE. unfold wrap_u16. rewrite (digits_wrap 2 16) by done. rewrite <- !digits_encode, HL, HA. done.
Qed.
Lemma index_payload_bytes s i ch : get_payload_type s = POk PTIndex -> decode_index_payload s = POk (i, ch) ->
  take 4 (sl_bytes s) = [x4d; x30; x49; x54] /\ - 2 ^ 63 <= i < 2 ^ 63 /\ 0 <= ch < 2 ^ 16 /\ exists rest, sl_buf s = index_bytes i ch ++ rest.
Proof.
  intros H G. unfold get_payload_type in H. destruct (Z.ltb_spec (sl_len s) 4) as [|Hl]; [done|]. open_slice t0 H.
  destruct (bool_decide_reflect (sl_bytes t0 = ntt_prefix)); [done|]. destruct (bool_decide_reflect (sl_bytes t0 = index_prefix)) as [HP|]; [|done].
  unfold decode_index_payload in G. open_slice t1 G. open_slice t2 G. injection G as <- <-.
  apply sl_cut in E as (_ & C0 & L0 & B0 & N0). apply sl_cut in E0 as (_ & C1 & L1 & _). apply sl_cut in E1 as (_ & C2 & L2 & _).
  split; [|split; [apply wrap_i64_range|split; [apply (uint_range t2 2 L2)|]]].
  - change [x4d; x30; x49; x54] with index_prefix. rewrite <- HP. unfold sl_bytes. rewrite B0, N0, take_take. f_equal. lia.
  - exists (drop (Z.to_nat 14) (sl_buf s)). unfold index_bytes. rewrite digits_i64, (uint_digits t1 8 L1), (uint_digits t2 2 L2).
    change (drop (Z.to_nat 0) (sl_buf s)) with (sl_buf s) in C0. etrans; [exact C0|]. rewrite HP. change index_prefix with [x4d; x30; x49; x54].
    rewrite C1, C2. by rewrite <- !app_assoc.
Qed.
Lemma unknown_payload s : get_payload_type s = POk PTUnknown ->
  take 4 (sl_bytes s) <> [x99; x4e; x54; x54] /\ take 4 (sl_bytes s) <> [x4d; x30; x49; x54].
Proof.
  intros H. unfold get_payload_type in H. destruct (Z.ltb_spec (sl_len s) 4) as [Hl|Hl].
  - assert (length (take 4 (sl_bytes s)) < 4)%nat as HL by (unfold sl_bytes; rewrite !take_length; lia).
    split; intros X; rewrite X in HL; cbn in HL; lia.
  - open_slice t0 H. apply sl_cut in E as (_ & C0 & L0 & B0 & N0).
    assert (take 4 (sl_bytes s) = sl_bytes t0) as ->. { unfold sl_bytes. rewrite B0, N0, take_take. f_equal. lia. }
    destruct (bool_decide_reflect (sl_bytes t0 = ntt_prefix)); [done|]. destruct (bool_decide_reflect (sl_bytes t0 = index_prefix)); [done|]. done.
Qed.

(** * Deliveries *)
Theorem delivery_bytes c s s' x bz : chain_ok c -> reachable c s -> exec c (OpDeliver x bz) s = Ok s' tt ->
  exists v pr id sender body extra tail,
    c_vaa c bz = Some v /\ va_digest v ∉ x_vaas (st_world s) /\ p_peers (st_portal s) !! va_chain v = Some pr /\ va_emitter v = pr_transceiver pr /\
    wide (pr_manager pr) /\ wide (manager_word c) /\ wide id /\ wide sender /\ 66 + blen body < 65536 /\ blen extra < 65536 /\
    sl_buf (va_payload v) = wire (pr_manager pr) (manager_word c) id sender body extra ++ tail /\
    ((exists d amount source recipient index rest, wide source /\ wide recipient /\ 0 <= amount < 2 ^ 64 /\ - 2 ^ 63 <= index < 2 ^ 63 /\
        body = [x99; x4e; x54; x54; d] ++ digits 8 amount ++ source ++ recipient ++ digits 2 (c_chain c) ++
               digits 2 (40 + blen rest) ++ digits 8 index ++ token_word c ++ rest /\
        let r := c_acct c (drop 12 recipient) in
        let not_collecting b := AUser b <> v_collector (st_vaults s) \/ v_ended (st_vaults s) = false in
        r <> ModuleA /\ c_blocked c r = false /\ current_index s' = Z.max index (current_index s) /\
        (r <> YieldA -> bal s r + amount <= bal s' r) /\
        (forall b, r = AUser b -> not_collecting b ->
           bal s' r = bal s r + amount /\ prin s' r = prin s r + floor_div (amount * unit_index) (current_index s')) /\
        (forall b, r <> AUser b -> not_collecting b -> bal s' (AUser b) = bal s (AUser b) /\ prin s' (AUser b) = prin s (AUser b))) \/
     (exists index rest, current_index s < index < 2 ^ 63 /\ current_index s' = index /\ take 4 body = [x4d; x30; x49; x54] /\
        body ++ digits 2 (blen extra) ++ extra ++ tail = index_bytes index (c_chain c) ++ rest) \/
     (take 4 body <> [x99; x4e; x54; x54] /\ take 4 body <> [x4d; x30; x49; x54] /\
        s' = s <| st_world; x_vaas ::= union {[va_digest v]} |>)).
Proof.
  intros Hc Hr E. pose proof (reach_w _ _ Hc Hr) as Hw.
  destruct (deliver_inv' _ _ _ _ _ Hc Hw E) as (v & pl & [A1 A2 A3 (pr & t & m & B1 & B2 & B3 & B4 & B5 & B6 & ->)] & Hh).
  destruct (transceiver_bytes _ _ B3) as (ml & tl & tail & T1 & T2 & T3 & T4 & T5 & T6 & T7 & T8 & T9).
  destruct (manager_bytes _ _ T7 B6) as (M1 & M2 & M3 & M4 & M5 & M6).
  assert (HM : ml = 66 + blen (sl_bytes (mp_payload m))).
  { rewrite <- T3, M1. unfold wide in *. rewrite digits_encode. sizes. }
  exists v, pr, (sl_bytes (mp_id m)), (sl_bytes (mp_sender m)), (sl_bytes (mp_payload m)), (sl_bytes (tp_payload t)), tail.
  rewrite B4 in *. change (manager_word c) with (padded_manager c). rewrite B5 in *.
  split; [done|]. split; [done|]. split; [done|]. split; [done|]. split; [done|]. split; [done|]. split; [done|]. split; [done|]. split; [lia|]. split; [lia|].
  split. { rewrite T1, M1, HM, <- T4. unfold wire. by rewrite <- !app_assoc. }
  inversion Hh as [H1 H2|i s1 H1 H2 H3 H4|k s1 H1 H2 H3 H4 H5 H6 H7 H8 H9].
  - right. right. apply unknown_payload in H1 as [? ?]. done.
  - right. left. destruct (index_payload_bytes _ _ _ H1 H2) as (X1 & X2 & X3 & rest & X4).
    assert (carried_index c bz = Some i) as HI by (unfold carried_index, carried; by rewrite A2, B3, B6, H1, H2).
    destruct (index_update _ _ _ _ _ _ Hc Hr HI E) as [Y1 Y2].
    exists i, rest. split; [lia|]. split; [done|]. split; [done|].
    rewrite <- X4, M6, T2, M1. unfold wide in *. rewrite <- T4.
    rewrite <- !app_assoc. rewrite (drop_app_ge _ _ 66) by (unfold blen in *; lia). replace (66 - length (sl_bytes (mp_id m)))%nat with 34%nat by (unfold blen in *; lia).
    rewrite (drop_app_ge _ _ 34) by (unfold blen in *; lia). replace (34 - length (sl_bytes (mp_sender m)))%nat with 2%nat by (unfold blen in *; lia).
    done.
  - left. assert (HT : sl_bytes (tk_token k) <> []).
    { rewrite H4. unfold raw_token, pad32'. intros X. apply (f_equal length) in X. rewrite app_length, replicate_length in X. cbn [length] in X. lia. }
    destruct (token_payload_bytes _ _ M5 H2 HT) as (d & source & recipient & rest & W1 & W2 & W3 & W4 & W5 & W6 & W7 & W8).
    pose proof (token_effect _ _ _ _ _ _ _ _ _ Hc Hr E A2 B3 B6 H1 H2 ltac:(lia)) as HE. cbv zeta in HE. rewrite W4 in HE.
    exists d, (tk_amount k), source, recipient, (tk_index k), rest. destruct HE as (E1 & E2 & E3).
    split; [done|]. split; [done|]. split; [done|]. split; [done|]. split; [|rewrite H9; exact E3].
    rewrite W8, H3, H4. done.
Qed.
