(** Portal messages: decoding, deliveries, transfers. *)
From Verif Require Export AdminP CodecP.
From Verif Require Import Spec.

(** * No panic on well shaped messages *)
Definition calm {A} (p : pres A) : Prop := p <> PPanic.
Lemma sl_sub_some s a b : sl_wf s -> 0 <= a <= b -> b <= sl_len s -> exists t, sl_sub s a b = Some t.
Proof. intros. destruct (sl_sub_in s a b) as (t & ? & _); eauto. Qed.
Lemma parse_manager_calm s : sl_wf s -> calm (parse_manager s).
Proof.
  intros Hw. unfold parse_manager, calm, sl_from. destruct (Z.ltb_spec (sl_len s) 66); [done|].
  destruct (sl_sub_some s 0 32) as [? ->]; [done|lia|lia|]. destruct (sl_sub_some s 32 64) as [? ->]; [done|lia|lia|].
  destruct (sl_sub_some s 64 66) as [? ->]; [done|lia|lia|]. destruct (sl_sub_some s 66 (sl_len s)) as [? ->]; [done|lia|lia|].
  cbn [of_slice pbind]. by destruct (negb _).
Qed.
Lemma parse_ntt_calm s : sl_wf s -> calm (parse_ntt s).
Proof.
  intros Hw. unfold parse_ntt, calm, sl_from. destruct (Z.ltb_spec (sl_len s) 79); [done|].
  destruct (sl_sub_some s 0 4) as [? ->]; [done|lia|lia|]. cbn [of_slice pbind]. destruct (negb _); [done|].
  destruct (sl_sub_some s 5 13) as [? ->]; [done|lia|lia|]. destruct (sl_sub_some s 13 45) as [? ->]; [done|lia|lia|].
  destruct (sl_sub_some s 45 77) as [? ->]; [done|lia|lia|]. destruct (sl_sub_some s 77 79) as [? ->]; [done|lia|lia|].
  cbn [of_slice pbind]. destruct (Z.ltb_spec 79 (sl_len s)); [|done]. destruct (Z.ltb_spec (sl_len s) 81); [done|].
  destruct (sl_sub_some s 79 81) as [? ->]; [done|lia|lia|]. destruct (sl_sub_some s 81 (sl_len s)) as [? ->]; [done|lia|lia|].
  cbn [of_slice pbind]. by destruct (negb _).
Qed.
Lemma decode_additional_calm s : sl_wf s -> calm (decode_additional s).
Proof.
  intros Hw. unfold decode_additional, calm. destruct (Z.ltb_spec (sl_len s) 40); [done|].
  destruct (sl_sub_some s 0 8) as [? ->]; [done|lia|lia|]. destruct (sl_sub_some s 8 40) as [? ->]; [done|lia|lia|]. done.
Qed.
Lemma payload_type_spec s : sl_wf s -> get_payload_type s =
  POk (if bool_decide (take 4 (sl_bytes s) = ntt_prefix) then PTToken
       else if bool_decide (take 4 (sl_bytes s) = index_prefix) then PTIndex else PTUnknown).
Proof.
  intros Hw. unfold get_payload_type. pose proof (sl_bytes_length s Hw) as HL. destruct (Z.ltb_spec (sl_len s) 4).
  - assert (forall p, length p = 4%nat -> take 4 (sl_bytes s) <> p) as H'.
    { intros p Hp E. apply (f_equal length) in E. rewrite take_length in E. unfold blen in HL. lia. }
    rewrite !bool_decide_false; [done| |]; by apply H'.
  - destruct (sl_sub_in s 0 4) as (t & -> & _ & _ & Hb & _); [done|lia|lia|]. cbn [of_slice pbind]. rewrite Hb.
    change (Z.to_nat (4 - 0)) with 4%nat. change (Z.to_nat 0) with 0%nat. rewrite drop_0.
    repeat case_bool_decide; done.
Qed.
Lemma sl_sub_wf s a b t : sl_sub s a b = Some t -> b <= sl_len s -> sl_wf s -> sl_wf t.
Proof. intros H Hb Hw. by apply sl_sub_inv in H as (_ & ? & _). Qed.
Lemma parse_ntt_shaped s : sl_wf s -> take 4 (sl_bytes s) = ntt_prefix -> token_shaped (sl_bytes s) ->
  exists n, parse_ntt s = POk n /\ sl_wf (np_to n) /\ sl_len (np_to n) = 32 /\ sl_wf (np_additional n).
Proof.
  intros Hw Hp Hs. specialize (Hs Hp). rewrite (sl_bytes_length s Hw) in Hs.
  assert (79 <= sl_len s) by (destruct Hs; lia).
  unfold parse_ntt, sl_from. destruct (Z.ltb_spec (sl_len s) 79); [lia|].
  destruct (sl_sub_in s 0 4) as (t0 & -> & _ & _ & Hb & _); [done|lia|lia|]. cbn [of_slice pbind]. rewrite bool_decide_true.
  2:{ rewrite Hb. change (Z.to_nat (4 - 0)) with 4%nat. by rewrite drop_0. }
  destruct (sl_sub_some s 5 13) as [? ->]; [done|lia|lia|]. destruct (sl_sub_some s 13 45) as [? ->]; [done|lia|lia|].
  destruct (sl_sub_in s 45 77) as (to & -> & Wt & Lt & _); [done|lia|lia|]. destruct (sl_sub_some s 77 79) as [? ->]; [done|lia|lia|].
  cbn [of_slice pbind negb]. destruct (Z.ltb_spec 79 (sl_len s)).
  - destruct (Z.ltb_spec (sl_len s) 81); [lia|].
    destruct (sl_sub_in s 79 81) as (t5 & -> & W5 & L5 & B5 & _); [done|lia|lia|].
    destruct (sl_sub_in s 81 (sl_len s)) as (t6 & -> & W6 & L6 & _); [done|lia|lia|]. cbn [of_slice pbind].
    destruct Hs as [?|[_ Hs]]; [lia|]. unfold sl_uint. rewrite B5. unfold number_at in Hs.
    change (Z.to_nat (81 - 79)) with 2%nat. rewrite (proj2 (Z.eqb_eq _ _)) by lia. cbn [negb].
    eexists. split; [done|]. cbn. rewrite Lt. auto.
  - eexists. split; [done|]. cbn. rewrite Lt. split; [done|]. split; [done|]. unfold sl_wf, sl_cap, sl_nil. cbn. lia.
Qed.
Lemma decode_token_calm s : sl_wf s -> take 4 (sl_bytes s) = ntt_prefix -> token_shaped (sl_bytes s) -> calm (decode_token_payload s).
Proof.
  intros Hw Hp Hs. unfold decode_token_payload. destruct (parse_ntt_shaped s Hw Hp Hs) as (n & -> & Wt & Lt & Wa).
  cbn [pbind]. pose proof (decode_additional_calm _ Wa) as HA. unfold calm in *.
  unfold sl_from. destruct (sl_sub_some (np_to n) 12 (sl_len (np_to n))) as [t ->]; [done|lia|lia|].
  by destruct (decode_additional (np_additional n)).
Qed.
Lemma decode_index_calm s : sl_wf s -> take 4 (sl_bytes s) = index_prefix -> index_shaped (sl_bytes s) -> calm (decode_index_payload s).
Proof.
  intros Hw Hp Hs. specialize (Hs Hp). rewrite (sl_bytes_length s Hw) in Hs. unfold decode_index_payload, calm.
  destruct (sl_sub_some s 4 12) as [? ->]; [done|lia|lia|]. destruct (sl_sub_some s 12 14) as [? ->]; [done|lia|lia|]. done.
Qed.
Lemma number_at_range bs o : 0 <= number_at bs o < 65536.
Proof.
  unfold number_at. pose proof (be_decode_range (take 2 (drop (Z.to_nat o) bs))) as H. rewrite take_length in H.
  assert (256 ^ Z.of_nat (2 `min` length (drop (Z.to_nat o) bs)) <= 256 ^ 2) by (apply Z.pow_le_mono_r; lia). lia.
Qed.
Lemma parse_transceiver_shaped s : sl_wf s -> well_shaped (sl_bytes s) ->
  parse_transceiver s = PErr EMalformed \/
  exists t, parse_transceiver s = POk t /\ sl_wf (tp_manager t) /\
    sl_bytes (tp_manager t) = take (Z.to_nat (number_at (sl_bytes s) 68)) (drop 70 (sl_bytes s)).
Proof.
  intros Hw (H1 & H2 & _). rewrite (sl_bytes_length s Hw) in H1, H2.
  pose proof (number_at_range (sl_bytes s) 68) as R1. pose proof (number_at_range (sl_bytes s) (70 + number_at (sl_bytes s) 68)) as R2.
  unfold parse_transceiver.
  destruct (sl_sub_some s 0 4) as [t0 ->]; [done|lia|lia|]. cbn [of_slice pbind]. destruct (negb _); [by left|]. right.
  destruct (sl_sub_some s 4 36) as [? ->]; [done|lia|lia|]. destruct (sl_sub_some s 36 68) as [? ->]; [done|lia|lia|].
  destruct (sl_sub_in s 68 70) as (t3 & -> & _ & _ & B3 & _); [done|lia|lia|]. cbn [of_slice pbind].
  assert (sl_uint t3 = number_at (sl_bytes s) 68) as -> by (unfold sl_uint; by rewrite B3).
  set (m := number_at (sl_bytes s) 68) in *.
  destruct (sl_sub_in s 70 (70 + m)) as (t4 & -> & W4 & L4 & B4 & _); [done|lia|lia|].
  destruct (sl_sub_in s (70 + m) (70 + m + 2)) as (t5 & -> & _ & _ & B5 & _); [done|lia|lia|]. cbn [of_slice pbind].
  assert (sl_uint t5 = number_at (sl_bytes s) (70 + m)) as ->.
  { unfold sl_uint, number_at. rewrite B5. by replace (Z.to_nat (70 + m + 2 - (70 + m))) with 2%nat by lia. }
  destruct (sl_sub_some s (70 + m + 2) (70 + m + 2 + number_at (sl_bytes s) (70 + m))) as [? ->]; [done|lia|lia|].
  cbn [of_slice pbind]. eexists. split; [done|]. cbn [tp_manager]. split; [done|]. rewrite B4.
  by replace (70 + m - 70) with m by lia.
Qed.
Theorem decode_total s : sl_wf s -> well_shaped (sl_bytes s) -> decode_message s <> PPanic.
Proof.
  intros Hw Hs. unfold decode_message. destruct (parse_transceiver_shaped s Hw Hs) as [->|(t & -> & Wt & Bt)]; [done|].
  cbn [pbind]. pose proof (parse_manager_calm _ Wt) as HM. destruct (parse_manager (tp_manager t)) as [m| |] eqn:EM; try done.
  cbn [pbind]. destruct Hs as (_ & _ & HT & HI). rewrite <- Bt in HT, HI.
  assert (Hm : sl_wf (mp_payload m) /\ sl_bytes (mp_payload m) = drop 66 (sl_bytes (tp_manager t))).
  { unfold parse_manager in EM. destruct (Z.ltb_spec (sl_len (tp_manager t)) 66); [done|].
    open_slice a EM. open_slice b EM. open_slice d EM. open_slice e EM. destruct (negb _); [done|].
    injection EM as <-. cbn [mp_payload]. apply sl_from_inv in E2 as (_ & ? & _ & ?); auto. }
  destruct Hm as [Wm Bm]. rewrite <- Bm in HT, HI. rewrite payload_type_spec by done. cbn [pbind].
  case_bool_decide as C1.
  - pose proof (decode_token_calm _ Wm C1 HT). unfold calm in *. by destruct (decode_token_payload _).
  - case_bool_decide as C2; [|done]. pose proof (decode_index_calm _ Wm C2 HI). unfold calm in *. by destruct (decode_index_payload _).
Qed.
(** A delivery panics only while decoding or while applying what was decoded. *)
Theorem deliver_panics c x bz s : exec c (OpDeliver x bz) s = Panic ->
  exists v, c_vaa c bz = Some v /\
    (decode_message (va_payload v) = PPanic \/
     exists s1, (exists t, decode_message (va_payload v) = POk (DToken t) /\
                   mint c x (c_acct c (sl_bytes (tk_recipient t))) (tk_amount t) (tk_index t) s1 = Panic) \/
                (exists i ch, decode_message (va_payload v) = POk (DIndex i ch) /\ update_index c x i s1 = Panic)).
Proof.
  cbn [exec]. unfold deliver, parse_and_verify_vaa. unfold bind at 1, gets at 1. destruct (p_paused _); [done|].
  destruct (c_vaa c bz) as [v|]; [|done]. unfold bind at 1. unfold bind at 1. unfold gets at 1.
  destruct (bool_decide _); [done|]. cbv [modify ret bind gets].
  set (s1 := set st_world _ s). clearbody s1. intros H. exists v. split; [done|].
  destruct (p_peers _ !! _) as [pr|]; [|done]. destruct (negb _); [done|]. unfold decode_message.
  cbv [lift bind] in H. destruct (parse_transceiver (va_payload v)) as [t| |]; cbn [pbind]; [|done|by left].
  destruct (negb _); [done|]. destruct (negb _); [done|].
  destruct (parse_manager (tp_manager t)) as [m| |]; cbn [pbind]; [|done|by left].
  cbv [handle_payload lift bind fail ret] in H.
  destruct (get_payload_type (mp_payload m)) as [[]| |]; cbn [pbind]; try done; [| |by left].
  - destruct (decode_token_payload (mp_payload m)) as [k| |]; cbn [pbind]; [|done|by left].
    destruct (negb _); [done|]. destruct (negb _); [done|]. right. exists s1. left. eauto.
  - destruct (decode_index_payload (mp_payload m)) as [[i ch]| |]; cbn [pbind]; [|done|by left].
    destruct (negb _); [done|]. right. exists s1. right. eauto.
Qed.

(** * The wire form *)
Lemma digits_encode n z : digits n z = be_encode n z.
Proof.
  unfold digits. induction n as [|n IH]; [done|]. cbn [be_encode seq fmap list_fmap]. f_equal; [do 4 f_equal; lia|].
  rewrite <- IH, <- fmap_S_seq, <- list_fmap_compose. apply list_fmap_ext. intros k i _. cbn. do 4 f_equal. lia.
Qed.
Lemma digits_wrap n m z : 2 ^ m = 256 ^ Z.of_nat n -> be_encode n (z mod 2 ^ m) = digits n z.
Proof. intros E. by rewrite E, be_encode_mod, digits_encode. Qed.
Lemma wire_encoded from to id sender payload extra : wide id -> wide sender ->
  wire from to id sender payload extra = encode_transceiver (mk_tm from to (encode_manager (mk_mm id sender payload)) extra).
Proof.
  intros H1 H2. unfold wire, encode_transceiver, wide, wrap_u16 in *. cbn [tm_source tm_recipient tm_manager tm_payload].
  rewrite !(digits_wrap 2 16) by done. unfold transceiver_prefix. do 3 f_equal.
  assert (HL : blen (encode_manager (mk_mm id sender payload)) = 66 + blen payload) by (unfold encode_manager; cbn [mm_id mm_sender mm_payload]; sizes).
  rewrite HL. f_equal. unfold encode_manager, wrap_u16. cbn [mm_id mm_sender mm_payload]. rewrite (digits_wrap 2 16) by done. by rewrite <- !app_assoc.
Qed.
Lemma token_encoded source recipient token amount index chain : wide token ->
  token_bytes source recipient token amount index chain = encode_ntt (mk_ntt amount source recipient chain (encode_additional index token)).
Proof.
  intros H. unfold token_bytes, encode_ntt, wide, wrap_u16 in *. cbn [n_amount n_source_token n_to n_to_chain n_additional].
  assert (HL : blen (encode_additional index token) = 40) by (unfold encode_additional; sizes).
  rewrite HL. change (0 <? 40) with true. cbn iota. rewrite (digits_wrap 2 16) by done. unfold encode_additional, wrap_u64.
  rewrite (digits_wrap 8 64) by done. rewrite <- !digits_encode. unfold ntt_prefix. done.
Qed.
Lemma index_encoded index chain : index_bytes index chain = encode_index_payload index chain.
Proof.
  unfold index_bytes, encode_index_payload, wrap_u64. rewrite (digits_wrap 8 64) by done. by rewrite <- !digits_encode.
Qed.

(** * Tokens in *)
Lemma wire_parsed from to id sender payload extra sl : slice_ok sl -> sl_bytes sl = wire from to id sender payload extra ->
  wide from -> wide to -> wide id -> wide sender -> blen payload <= 65000 -> blen extra < 65536 ->
  exists t m, parse_transceiver sl = POk t /\ sl_bytes (tp_source t) = from /\ sl_bytes (tp_recipient t) = to /\
    sl_bytes (tp_payload t) = extra /\ parse_manager (tp_manager t) = POk m /\ sl_bytes (mp_id m) = id /\
    sl_bytes (mp_sender m) = sender /\ sl_bytes (mp_payload m) = payload /\ sl_wf (mp_payload m).
Proof.
  intros Hw E H1 H2 H3 H4 H5 H6. rewrite wire_encoded in E by done. unfold wide in *.
  assert (HL : blen (encode_manager (mk_mm id sender payload)) = 66 + blen payload) by (unfold encode_manager; cbn [mm_id mm_sender mm_payload]; sizes).
  destruct (transceiver_roundtrip _ sl Hw E) as (t & Ht & T1 & T2 & T3 & T4 & _ & _ & T7 & _); cbn [tm_source tm_recipient tm_manager tm_payload] in *; try done; [lia|].
  destruct (manager_roundtrip _ _ T7 T3) as (m & Hm & M1 & M2 & M3 & _ & _ & M6); cbn [mm_id mm_sender mm_payload] in *; try done; [lia|].
  exists t, m. auto 12.
Qed.
Lemma upd_others c i s s' : upd c i s s' -> good_collector s -> (forall a, a <> YieldA -> bal s a <= bal s' a) /\
  forall b, AUser b <> v_collector (st_vaults s) \/ v_ended (st_vaults s) = false ->
    bal s' (AUser b) = bal s (AUser b) /\ prin s' (AUser b) = prin s (AUser b).
Proof.
  intros H [Hg1 Hg2].
  destruct H as [a y Ha -> Hy|fy s1 He -> Hb -> Hz|fy s1 sy yp He -> Hb -> -> Hy Hp|y He -> Hy|a amt Ha Hamt|s' Hbk].
  - split.
    + intros b Hb. rewrite bal_send. unfold ind. rewrite (decide_False (P := b = YieldA)) by done. case_decide; lia.
    + intros b _. rewrite bal_send, prin_pay. unfold ind. rewrite !decide_False; [lia|..]; [|done].
      intros <-. by destruct Ha as [|[|[|[? ?]]]].
  - change (bal (record_reward ?a ?b ?d)) with (bal a). change (prin (record_reward ?a ?b ?d)) with (prin a). 
    pose proof (yield_of_nonneg s FlexibleA).
    split.
    + intros b Hb'. rewrite bal_pay by done. unfold ind. rewrite (decide_False (P := b = YieldA)) by done. case_decide; lia.
    + intros b _. rewrite bal_pay by done. split; [unfold ind; rewrite !decide_False by done; lia|]. unfold pay. destruct (0 <? _); [apply prin_pay|done].
  - change (bal (record_reward ?a ?b ?d)) with (bal a). change (prin (record_reward ?a ?b ?d)) with (prin a).
    change (bal (shiftp ?a ?b)) with (bal a).
    pose proof (yield_of_nonneg s FlexibleA).
    split.
    + intros b Hb'. rewrite bal_send, bal_pay by done. unfold ind. rewrite (decide_False (P := b = YieldA)) by done. repeat case_decide; try done; lia.
    + intros b _. rewrite bal_send, bal_pay by done. rewrite prin_shift, prin_pay. unfold ind. rewrite !decide_False by done.
      split; [lia|]. unfold pay. destruct (0 <? _); [rewrite prin_pay|]; lia.
  - split.
    + intros b Hb. rewrite !bal_send. unfold ind. repeat case_decide; try done; try lia; subst; try done; lia.
    + intros b [Hc|Hc]; [|congruence]. rewrite !bal_send. change (current_index (send_result s YieldA StakedA (yield_of s StakedA))) with (current_index s).
      assert (prin (send_result (send_result s YieldA StakedA (yield_of s StakedA)) StakedA (v_collector (st_vaults s)) (yield_of s StakedA)) (AUser b) = prin s (AUser b)) as ->.
      { rewrite prin_send by done. rewrite prin_pay. unfold ind. repeat case_decide; try done; lia. }
      unfold ind. rewrite !decide_False by done. lia.
  - assert (forall b, bal (send_result s a a amt) b = bal s b) as HB by (intros b; rewrite bal_send; unfold ind; case_decide; lia).
    split; [intros; by rewrite HB|]. intros b _. rewrite HB. split; [done|].
    rewrite prin_send by (destruct Ha as [->|[? ->]]; done). unfold ind. case_decide; lia.
  - destruct Hbk as (E & R & F & T & D & -> & _). split; [intros; done|intros; done].
Qed.

Lemma upds_others c i s s' : upds c i s s' -> good_collector s -> (forall a, a <> YieldA -> bal s a <= bal s' a) /\
  forall b, AUser b <> v_collector (st_vaults s) \/ v_ended (st_vaults s) = false ->
    bal s' (AUser b) = bal s (AUser b) /\ prin s' (AUser b) = prin s (AUser b).
Proof.
  induction 1 as [s|s s1 s2 H _ IH]; intros Hg; [split; intros; lia|].
  destruct (upd_others _ _ _ _ H Hg) as [A1 A2]. apply upd_frame in H as (_ & _ & _ & (Hc & He & _) & _); [|done].
  destruct IH as [B1 B2]; [unfold good_collector; by rewrite Hc|]. split.
  - intros a Ha. specialize (A1 a Ha). specialize (B1 a Ha). lia.
  - intros b Hb. destruct (A2 b Hb) as [<- <-]. apply B2. by rewrite Hc, He.
Qed.
Lemma tried_others c i s s' : index_tried c i s s' -> good_collector s -> (forall a, a <> YieldA -> bal s a <= bal s' a) /\
  forall b, AUser b <> v_collector (st_vaults s) \/ v_ended (st_vaults s) = false ->
    bal s' (AUser b) = bal s (AUser b) /\ prin s' (AUser b) = prin s (AUser b).
Proof.
  intros [[_ ->]|(_ & n & d & _ & Hn & _ & H)] Hg; [split; intros; lia|].
  apply upds_others in H as [A1 A2]; [|by apply accrued_good]. split.
  - intros a Ha. etrans; [|by apply A1]. rewrite bal_accrued by done. unfold ind. case_decide; lia.
  - intros b Hb. destruct (A2 b) as [-> ->].
    + destruct (frame_accrued s i n d) as (_ & _ & _ & _ & _ & _ & _ & _ & _ & _ & HV & _). by rewrite HV.
    + rewrite bal_accrued, prin_accrued by done. unfold ind. rewrite decide_False by done. lia.
Qed.

(** What an accepted token payload does, in terms of its decoded fields. *)
Lemma token_effect c s s' x bz v t m k : chain_ok c -> reachable c s -> exec c (OpDeliver x bz) s = Ok s' tt ->
  c_vaa c bz = Some v -> parse_transceiver (va_payload v) = POk t -> parse_manager (tp_manager t) = POk m ->
  get_payload_type (mp_payload m) = POk PTToken -> decode_token_payload (mp_payload m) = POk k -> 0 <= tk_amount k ->
  let r := c_acct c (sl_bytes (tk_recipient k)) in
  let quiet b := AUser b <> v_collector (st_vaults s) \/ v_ended (st_vaults s) = false in
  tk_chain k = c_chain c /\ sl_bytes (tk_token k) = raw_token c /\ r <> ModuleA /\ c_blocked c r = false /\
  current_index s' = Z.max (tk_index k) (current_index s) /\
  (r <> YieldA -> bal s r + tk_amount k <= bal s' r) /\
  (forall b, r = AUser b -> quiet b ->
     bal s' r = bal s r + tk_amount k /\ prin s' r = prin s r + floor_div (tk_amount k * unit_index) (current_index s')) /\
  (forall b, r <> AUser b -> quiet b -> bal s' (AUser b) = bal s (AUser b) /\ prin s' (AUser b) = prin s (AUser b)).
Proof.
  intros Hc Hr E Hv P1 P5 Q1 Q2 HA r quiet.
  pose proof (reach_w _ _ Hc Hr) as Hw.
  assert (Hidx : current_index s' = Z.max (tk_index k) (current_index s)).
  { eapply index_token; try done. unfold carried_token, carried. by rewrite Hv, P1, P5, Q1, Q2. }
  destruct (deliver_inv' _ _ _ _ _ Hc Hw E) as (v' & pl' & [A1 A2 A3 (pr & t' & m' & B1 & B2 & B3 & B4 & B5 & B6 & ->)] & Hh).
  assert (v' = v) as -> by congruence. assert (t' = t) as -> by congruence. assert (m' = m) as -> by congruence.
  inversion Hh as [H1|i s1 H1|k' s1 H1 H2 H3 H4 H5 H6 H7 H8 H9]; [congruence|congruence|].
  assert (k' = k) as -> by congruence. fold r in H7, H8, H9 |- *. set (amount := tk_amount k) in *.
  set (s0 := consume s (va_digest v)) in *.
  assert (Hg : good_collector s0) by apply Hw.
  destruct (tried_others _ _ _ _ H5 Hg) as [T1 T2].
  split; [done|]. split; [done|]. split; [done|]. split; [done|]. split; [congruence|].
  assert (HI' : current_index (issued s1 r amount) = current_index s1) by apply frame_issued.
  assert (HJ : 0 < current_index s1).
  { rewrite <- HI', H9, Hidx. pose proof (wf_index _ _ Hw). lia. }
  split; [|split].
  - intros Hy. rewrite bal_issued by (lia || done). unfold ind. rewrite decide_True by done. pose proof (T1 r Hy). change (bal s0 r) with (bal s r) in *. lia.
  - intros b Hb Hq. rewrite bal_issued by (lia || done). rewrite prin_issued by (lia || done). rewrite (decide_False (P := r = YieldA)) by (by rewrite Hb).
    unfold ind. rewrite !decide_True by done. rewrite Hb. destruct (T2 b Hq) as [-> ->]. rewrite <- ?H9, ?HI'.
    change (bal s0 (AUser b)) with (bal s (AUser b)). change (prin s0 (AUser b)) with (prin s (AUser b)).
    split; [done|]. rewrite down_floor by lia. by rewrite Hb in HI'; rewrite HI'.
  - intros b Hb Hq. rewrite bal_issued by (lia || done). rewrite prin_issued by (lia || done).
    unfold ind. rewrite !(decide_False (P := AUser b = r)) by done. destruct (T2 b Hq) as [-> ->].
    change (bal s0 (AUser b)) with (bal s (AUser b)). change (prin s0 (AUser b)) with (prin s (AUser b)).
    split; [lia|]. case_decide; lia.
Qed.

Theorem token_credits c s s' x bz v from to id sender extra source recipient token amount index chain :
  chain_ok c -> reachable c s -> exec c (OpDeliver x bz) s = Ok s' tt ->
  c_vaa c bz = Some v -> slice_ok (va_payload v) ->
  sl_bytes (va_payload v) = token_wire from to id sender extra source recipient token amount index chain ->
  wide from -> wide to -> wide id -> wide sender -> wide source -> wide recipient -> wide token -> blen extra < 65536 ->
  0 <= amount < 2 ^ 64 -> - 2 ^ 63 <= index < 2 ^ 63 -> 0 <= chain < 2 ^ 16 ->
  let r := c_acct c (drop 12 recipient) in
  let quiet b := AUser b <> v_collector (st_vaults s) \/ v_ended (st_vaults s) = false in
  chain = c_chain c /\ token = raw_token c /\ r <> ModuleA /\ c_blocked c r = false /\
  current_index s' = Z.max index (current_index s) /\
  (r <> YieldA -> bal s r + amount <= bal s' r) /\
  (forall b, r = AUser b -> quiet b ->
     bal s' r = bal s r + amount /\ prin s' r = prin s r + floor_div (amount * unit_index) (current_index s')) /\
  (forall b, r <> AUser b -> quiet b -> bal s' (AUser b) = bal s (AUser b) /\ prin s' (AUser b) = prin s (AUser b)).
Proof.
  intros Hc Hr E Hv Hok HW W1 W2 W3 W4 W5 W6 W7 HX HA HI HC r quiet.
  unfold token_wire in HW. rewrite token_encoded in HW by done.
  unfold wide in W1, W2, W3, W4, W5, W6, W7.
  set (pl := encode_ntt (mk_ntt amount source recipient chain (encode_additional index token))) in *.
  assert (HP : blen pl <= 65000).
  { subst pl. unfold encode_ntt. cbn [n_amount n_source_token n_to n_to_chain n_additional].
    assert (HL : blen (encode_additional index token) = 40) by (unfold encode_additional; sizes).
    assert (length ntt_prefix = 4%nat) by done.
    destruct (Z.ltb_spec 0 (blen (encode_additional index token))); sizes. }
  destruct (wire_parsed _ _ _ _ _ _ _ Hok HW W1 W2 W3 W4 HP HX) as (t & m & P1 & P2 & P3 & P4 & P5 & P6 & P7 & P8 & P9).
  destruct (token_roundtrip _ _ _ _ _ _ _ P9 P8 HA W5 W6 HC HI W7) as (Q1 & k & Q2 & Q3 & Q4 & Q5 & Q6 & Q7).
  pose proof (token_effect _ _ _ _ _ _ _ _ _ Hc Hr E Hv P1 P5 Q1 Q2 ltac:(lia)) as H. cbv zeta in H. rewrite Q3, Q4, Q5, Q6, Q7 in H. exact H.
Qed.

(** * Acceptance *)
Lemma runs_whenb b (m : M unit) s (Q : state -> unit -> Prop) : (b = true -> runs m s Q) -> (b = false -> Q s tt) -> runs (whenb b m) s Q.
Proof. destruct b; unfold whenb; intros H1 H2; [auto|by apply runs_ret, H2]. Qed.
Lemma mint_coins_run x s (Q : state -> unit -> Prop) : 0 < x -> int_range (bal s ModuleA + x) -> int_range (supply s + x) ->
  (forall s', supply s' = supply s + x -> (forall a, bal s' a = bal s a + ind (a = ModuleA) x) ->
     st_dollar s' = st_dollar s -> st_portal s' = st_portal s -> st_vaults s' = st_vaults s -> st_world s' = st_world s -> Q s' tt) ->
  runs (mint_coins x) s Q.
Proof.
  intros Hx H1 H2 HQ. unfold mint_coins. rewrite (proj2 (Z.eqb_neq x 0)) by lia. apply runs_bind. unfold add_coins.
  apply runs_bind, runs_gets, runs_bind. eapply runs_lift; [by apply int_chk_run|]. unfold set_bal. apply runs_modify.
  apply runs_bind, runs_gets, runs_bind. eapply runs_lift; [by apply int_chk_run|]. apply runs_modify.
  apply HQ; try done. intros a. unfold ind, bal. cbn. case_decide as D.
  - subst a. by rewrite lookup_insert.
  - rewrite lookup_insert_ne by done. lia.
Qed.
Lemma send_module_run s t x (Q : state -> unit -> Prop) : t <> ModuleA -> t <> YieldA -> 0 < x -> x <= bal s ModuleA -> 0 < current_index s ->
  int_range (x * unit_index + current_index s) -> int_range (total_principal s + ceil_div (x * unit_index) (current_index s)) ->
  int_range (prin s t + floor_div (x * unit_index) (current_index s)) -> int_range (bal s t + x) ->
  (forall s', Q s' tt) -> runs (send_coins ModuleA t x) s Q.
Proof.
  intros Ht1 Ht2 Hx Hb Hi R1 R3 R4 R5 HQ. unfold send_coins. rewrite (proj2 (Z.eqb_neq x 0)) by lia.
  apply runs_bind. unfold sub_coins. apply runs_bind, runs_gets. rewrite (proj2 (Z.ltb_ge (bal s ModuleA) x)) by lia.
  unfold set_bal. apply runs_modify. set (s1 := s <| st_bank; bk_bal ::= _ |>).
  apply runs_bind. unfold send_restriction. rewrite (proj2 (Z.eqb_neq x 0)) by lia.
  rewrite (bool_decide_false (ModuleA = YieldA)), (bool_decide_false (t = YieldA)), (bool_decide_true (ModuleA = ModuleA)), (bool_decide_false (t = ModuleA)) by done.
  apply runs_bind. unfold get_index. apply runs_gets. apply runs_bind. eapply runs_lift; [apply principal_up_run; [lia|exact Hi|exact R1]|].
  change (current_index s1) with (current_index s).
  apply runs_bind. unfold increment_total_principal. apply runs_bind, runs_gets, runs_bind. eapply runs_lift.
  { apply int_safe_add_run. rewrite up_ceil by lia. exact R3. }
  apply runs_modify. apply runs_bind. eapply runs_lift.
  { apply principal_down_run; [done|]. clear - R1 Hx Hi. unfold int_range, unit_index in *. change (10 ^ 12) with e12 in *. unfold e12 in *. lia. }
  apply runs_bind. unfold get_principal. apply runs_gets. apply runs_bind. eapply runs_lift.
  { apply int_chk_run. rewrite down_floor by lia. exact R4. }
  apply runs_bind. unfold set_principal. apply runs_modify. apply runs_bind, runs_gets.
  set (s3 := set st_dollar _ _).
  assert (F : forall s', st_bank s' = st_bank s1 -> runs (add_coins t x;;; modify (fun s0 => s0 <| st_bank; bk_sends ::= Z.succ |>)) s' Q).
  { intros s' E. apply runs_bind. unfold add_coins. apply runs_bind, runs_gets, runs_bind. eapply runs_lift.
    - apply int_chk_run. unfold bal. rewrite E. subst s1. cbn. rewrite lookup_insert_ne by done. exact R5.
    - unfold set_bal. apply runs_modify, runs_modify, HQ. }
  apply runs_whenb; intros _; [unfold increment_total_holders; apply runs_modify|]; by apply F.
Qed.
Lemma update_refused c x i s : i <= current_index s -> update_index c x i s = Err s EDecreasingIndex.
Proof. intros H. unfold update_index, get_index, bind, gets. by rewrite (proj2 (Z.leb_le _ _)). Qed.
Lemma mint_run c x to amount i s : i <= current_index s -> 0 < current_index s -> bal s ModuleA = 0 -> 0 <= amount -> to <> ModuleA -> to <> YieldA ->
  c_blocked c to = false -> issue_in_range s to amount -> exists s', mint c x to amount i s = Ok s' tt.
Proof.
  intros Hi Hp Hm Ha Ht1 Ht2 Hbl R. enough (runs (mint c x to amount i) s (fun _ _ => True)) as H.
  { apply runs_ok in H as (s' & [] & H & _). eauto. }
  unfold mint. apply runs_bind. apply runs_try; rewrite update_refused by done; [done|done|]. intros ? e [= <- <-].
  apply runs_bind. unfold new_coins. rewrite (proj2 (Z.ltb_ge amount 0)) by lia. apply runs_ret. apply runs_bind.
  destruct (decide (amount = 0)) as [->|Hne].
  { apply runs_ret. unfold send_to_account. rewrite Hbl. by apply runs_ret. }
  apply mint_coins_run; [lia| |apply R|].
  { rewrite Hm. pose proof (if_scaled _ _ _ R). unfold int_range, unit_index in *. lia. }
  intros s' H1 H2 H3 H4 H5 H6. unfold send_to_account. rewrite Hbl.
  assert (current_index s' = current_index s) as E1 by (unfold current_index; by rewrite H3).
  assert (prin s' to = prin s to) as E2 by (unfold prin; by rewrite H3).
  assert (total_principal s' = total_principal s) as E3 by (unfold total_principal; by rewrite H3).
  destruct R. apply send_module_run; rewrite ?E1, ?E2, ?E3; auto; try lia.
  - rewrite H2. unfold ind. rewrite decide_True by done. lia.
  - rewrite H2. unfold ind. rewrite decide_False by done. by rewrite Z.add_0_r.
Qed.

Theorem token_accepted c s x bz v pr from to id sender extra source recipient token amount index chain :
  chain_ok c -> reachable c s -> p_paused (st_portal s) = false ->
  c_vaa c bz = Some v -> va_digest v ∉ x_vaas (st_world s) -> slice_ok (va_payload v) ->
  p_peers (st_portal s) !! va_chain v = Some pr -> va_emitter v = pr_transceiver pr -> from = pr_manager pr -> to = padded_manager c ->
  sl_bytes (va_payload v) = token_wire from to id sender extra source recipient token amount index chain ->
  wide id -> wide sender -> wide source -> wide recipient -> token = raw_token c -> blen extra < 65536 ->
  0 <= amount < 2 ^ 64 -> - 2 ^ 63 <= index <= current_index s -> chain = c_chain c ->
  let r := c_acct c (drop 12 recipient) in
  ordinary_account r -> c_blocked c r = false -> issue_in_range s r amount ->
  exists s', exec c (OpDeliver x bz) s = Ok s' tt.
Proof.
  intros Hc Hr Hpa Hv Hd Hok Hpr Hem -> -> HW W3 W4 W5 W6 HT HX HA HI HC r [Hr1 Hr2] Hbl Hrange.
  pose proof (reach_w _ _ Hc Hr) as Hw. pose proof (wf_index _ _ Hw) as Hidx.
  destruct (proj1 (portal_well_formed _ _ Hc Hr) _ _ Hpr) as (_ & _ & _ & W1 & _).
  assert (W2 : blen (padded_manager c) = 32).
  { unfold padded_manager, blen. rewrite app_length, replicate_length. pose proof (ok_manager _ Hc). unfold blen in *. lia. }
  assert (W7 : blen token = 32).
  { rewrite HT. unfold raw_token, pad32', blen. rewrite app_length, replicate_length. pose proof (ok_denom _ Hc). unfold blen in *. lia. }
  unfold token_wire in HW. rewrite token_encoded in HW by done. unfold wide in W3, W4, W5, W6.
  assert (HP : blen (encode_ntt (mk_ntt amount source recipient chain (encode_additional index token))) <= 65000).
  { unfold encode_ntt. cbn [n_amount n_source_token n_to n_to_chain n_additional].
    assert (HL : blen (encode_additional index token) = 40) by (unfold encode_additional; sizes).
    assert (length ntt_prefix = 4%nat) by done.
    destruct (Z.ltb_spec 0 (blen (encode_additional index token))); sizes. }
  destruct (wire_parsed _ _ _ _ _ _ _ Hok HW W1 W2 W3 W4 HP HX) as (t & m & P1 & P2 & P3 & P4 & P5 & P6 & P7 & P8 & P9).
  assert (HC' : 0 <= chain < 2 ^ 16) by (rewrite HC; apply (ok_chain _ Hc)).
  assert (HI' : - 2 ^ 63 <= index < 2 ^ 63) by lia.
  destruct (token_roundtrip _ _ _ _ _ _ _ P9 P8 HA W5 W6 HC' HI' W7) as (Q1 & k & Q2 & Q3 & Q4 & Q5 & Q6 & Q7).
  set (s1 := s <| st_world; x_vaas ::= union {[va_digest v]} |>).
  destruct (mint_run c x r amount index s1) as [s' E]; [apply HI|apply Hidx|apply Hw|lia|done|done|done|destruct Hrange; by constructor|].
  exists s'. cbn [exec]. unfold deliver, parse_and_verify_vaa. cbv [bind gets modify ret fail]. rewrite Hpa, Hv.
  rewrite bool_decide_false by done. fold s1. change (p_peers (st_portal s1)) with (p_peers (st_portal s)). rewrite Hpr.
  rewrite bool_decide_true by done. cbn [negb]. cbv [lift]. rewrite P1, P2, P3. rewrite !bool_decide_true by done. cbn [negb].
  rewrite P5. cbv [handle_payload bind lift]. rewrite Q1, Q2, Q6, Q7, <- HC, Z.eqb_refl. rewrite <- HT, bool_decide_true by done. cbn [negb].
  rewrite Q3, Q4, Q5. exact E.
Qed.

(** * Tokens out *)
Lemma pad32_ok b r : pad32 b = POk r -> blen r = 32 /\ r = replicate (32 - length b) Byte.x00 ++ b /\ blen b <= 32.
Proof.
  unfold pad32. destruct (Z.ltb_spec 32 (blen b)); [done|]. intros [= <-]. unfold blen in *. rewrite app_length, replicate_length. repeat split; lia.
Qed.
(** The message a transfer posts, byte for byte. *)
Theorem transfer_posts c s s' ps g chain tok rc amount : chain_ok c -> reachable c s ->
  exec c (OpTransfer ps g chain tok rc amount) s = Ok s' tt ->
  exists b x pr, c_dec c g = Some (AUser b) /\ amount = Some x /\ 0 <= x < 2 ^ 63 /\
    p_peers (st_portal s) !! chain = Some pr /\ wide (pr_manager pr) /\ wide rc /\ wide tok /\ blen (c_raw c (AUser b)) <= 32 /\
    supply s' = supply s - x /\ (forall a, bal s' a = bal s a - on a (AUser b) x) /\
    x_posted (st_world s') = x_posted (st_world s) ++
      [(token_wire (manager_word c) (pr_manager pr) (replicate 28 Byte.x00 ++ digits 4 (p_nonce (st_portal s)))
          (replicate (32 - length (c_raw c (AUser b))) Byte.x00 ++ c_raw c (AUser b)) []
          (token_word c) rc tok x (current_index s) chain, p_nonce (st_portal s))].
Proof.
  intros Hc Hr E. pose proof (reach_w _ _ Hc Hr) as Hw. pose proof (wf_index _ _ Hw) as Hidx.
  destruct (transfer_inv' _ _ _ _ _ _ _ _ _ (wf_module _ _ Hw) E)
    as (b & x & pr & sender & id & D1 & -> & Hx & -> & D3 & D4 & [sup D5] & D6 & D7 & D8 & D9 & ->).
  destruct (proj1 (portal_well_formed _ _ Hc Hr) _ _ D4) as (_ & _ & _ & W1 & _).
  destruct (proj2 (portal_well_formed _ _ Hc Hr) _ _ _ D5) as (_ & W7 & _).
  apply pad32_ok in D7 as (W4 & D7 & D7'), D8 as (W3 & D8 & _). rewrite be_encode_length in D8.
  exists b, x, pr. split; [done|]. split; [done|]. split; [lia|]. split; [done|]. split; [done|]. split; [done|]. split; [done|]. split; [done|].
  split; [change (supply (post ?a ?b)) with (supply a); rewrite supply_burned by lia; done|].
  split.
  { intros a. change (bal (post ?a ?b)) with (bal a). rewrite bal_burned by (lia || done). rewrite on_ind. done. }
  change (x_posted (st_world (post ?a ?b))) with (x_posted (st_world a) ++ [b]).
  destruct (frame_burned (bump_nonce s) (AUser b) x) as (_ & _ & _ & _ & _ & _ & _ & _ & ->).
  rewrite digits_encode. unfold token_wire. rewrite <- D7. change 28%nat with (32 - 4)%nat. rewrite <- D8. rewrite wire_encoded, token_encoded by done. done.
Qed.
Theorem transfer_burns c s s' ps g chain tok rc amount : chain_ok c -> reachable c s -> 0 <= chain < 2 ^ 16 ->
  exec c (OpTransfer ps g chain tok rc amount) s = Ok s' tt ->
  exists b x pr, c_dec c g = Some (AUser b) /\ amount = Some x /\ 0 <= x < 2 ^ 63 /\
    p_peers (st_portal s) !! chain = Some pr /\
    supply s' = supply s - x /\ (forall a, bal s' a = bal s a - on a (AUser b) x) /\
    exists msg, x_posted (st_world s') = x_posted (st_world s) ++ [(msg, p_nonce (st_portal s))] /\
    exists t m k ix, parse_transceiver (sl_of msg) = POk t /\ parse_manager (tp_manager t) = POk m /\
      parse_ntt (mp_payload m) = POk k /\ decode_additional (np_additional k) = POk ix /\
      sl_bytes (tp_source t) = padded_manager c /\ sl_bytes (tp_recipient t) = pr_manager pr /\ sl_bytes (tp_payload t) = [] /\
      sl_bytes (mp_id m) = replicate 28 Byte.x00 ++ be_encode 4 (p_nonce (st_portal s)) /\
      sl_bytes (mp_sender m) = replicate (32 - length (c_raw c (AUser b))) Byte.x00 ++ c_raw c (AUser b) /\
      np_amount k = x /\ sl_bytes (np_source_token k) = raw_token c /\ sl_bytes (np_to k) = rc /\ np_to_chain k = chain /\
      ix.1 = current_index s /\ sl_bytes ix.2 = tok.
Proof.
  intros Hc Hr HC E. pose proof (reach_w _ _ Hc Hr) as Hw. pose proof (wf_index _ _ Hw) as Hidx.
  destruct (transfer_inv' _ _ _ _ _ _ _ _ _ (wf_module _ _ Hw) E)
    as (b & x & pr & sender & id & D1 & -> & Hx & -> & D3 & D4 & [sup D5] & D6 & D7 & D8 & D9 & ->).
  destruct (proj1 (portal_well_formed _ _ Hc Hr) _ _ D4) as (_ & _ & _ & W1 & _).
  destruct (proj2 (portal_well_formed _ _ Hc Hr) _ _ _ D5) as (_ & W7 & _).
  apply pad32_ok in D7 as (W4 & D7 & _), D8 as (W3 & D8 & _). rewrite be_encode_length in D8.
  assert (W2 : blen (padded_manager c) = 32).
  { unfold padded_manager, blen. rewrite app_length, replicate_length. pose proof (ok_manager _ Hc). unfold blen in *. lia. }
  assert (W5 : blen (raw_token c) = 32).
  { unfold raw_token, pad32', blen. rewrite app_length, replicate_length. pose proof (ok_denom _ Hc). unfold blen in *. lia. }
  assert (HL : blen (encode_additional (current_index s) tok) = 40) by (unfold encode_additional; sizes).
  assert (HP : blen (encode_ntt (mk_ntt x (raw_token c) rc chain (encode_additional (current_index s) tok))) <= 65000).
  { unfold encode_ntt. cbn [n_amount n_source_token n_to n_to_chain n_additional].
    assert (length ntt_prefix = 4%nat) by done.
    destruct (Z.ltb_spec 0 (blen (encode_additional (current_index s) tok))); sizes. }
  set (msg := encode_transceiver _).
  exists b, x, pr. split; [done|]. split; [done|]. split; [lia|]. split; [done|].
  split; [change (supply (post ?a ?b)) with (supply a); rewrite supply_burned by lia; done|].
  split.
  { intros a. change (bal (post ?a ?b)) with (bal a). rewrite bal_burned by (lia || done). rewrite on_ind. done. }
  exists msg. split.
  { change (x_posted (st_world (post ?a ?b))) with (x_posted (st_world a) ++ [b]).
    destruct (frame_burned (bump_nonce s) (AUser b) x) as (_ & _ & _ & _ & _ & _ & _ & _ & ->). done. }
  destruct (wire_parsed _ _ _ _ _ [] (sl_of msg) (sl_of_wf msg) (eq_trans (sl_of_bytes msg) (eq_sym (wire_encoded _ _ _ _ _ [] W3 W4))) W2 W1 W3 W4 HP) as (t & m & P1 & P2 & P3 & P4 & P5 & P6 & P7 & P8 & P9); [done|].
  destruct (ntt_roundtrip _ _ P9 P8) as (k & K1 & K2 & K3 & K4 & K5 & K6 & _ & _ & K9); cbn [n_amount n_source_token n_to n_to_chain n_additional] in *; try done; try lia.
  destruct (additional_roundtrip (current_index s) tok _ K9 K6) as (t' & L1 & L2 & _); [lia|done|].
  exists t, m, k, (current_index s, t'). rewrite P6, P7, D7, D8. auto 20.
Qed.
Lemma runs_unbind {A B} (m : M A) (f : A -> M B) s (Q : state -> B -> Prop) :
  runs (bind m f) s Q -> runs m s (fun s' a => runs (f a) s' Q).
Proof. unfold runs, bind. by destruct (m s). Qed.
Lemma burn_run s f x (Q : state -> unit -> Prop) : f <> ModuleA -> f <> YieldA -> 0 <= x -> x <= bal s f -> bal s ModuleA = 0 -> 0 < current_index s ->
  redeem_in_range s f x -> (forall s', Q s' tt) -> runs (burn f x) s Q.
Proof.
  intros Hf1 Hf2 Hx Hb Hm Hi [R1 R2 R3] HQ. unfold burn. apply runs_bind. unfold new_coins. rewrite (proj2 (Z.ltb_ge x 0)) by lia.
  apply runs_ret. destruct (decide (x = 0)) as [->|Hne]; [apply runs_bind; unfold send_coins; cbn; apply runs_ret; by apply runs_ret|].
  apply runs_bind. unfold send_coins. rewrite (proj2 (Z.eqb_neq x 0)) by lia.
  apply runs_bind. unfold sub_coins. apply runs_bind, runs_gets. rewrite (proj2 (Z.ltb_ge (bal s f) x)) by lia.
  unfold set_bal. apply runs_modify. set (s1 := s <| st_bank; bk_bal ::= _ |>).
  apply runs_bind. unfold send_restriction. rewrite (proj2 (Z.eqb_neq x 0)) by lia.
  rewrite (bool_decide_false (f = YieldA)), (bool_decide_false (ModuleA = YieldA)), (bool_decide_false (f = ModuleA)), (bool_decide_true (ModuleA = ModuleA)) by done.
  apply runs_bind. unfold get_index. apply runs_gets. apply runs_bind. eapply runs_lift; [apply principal_up_run; [lia|exact Hi|exact R1]|].
  change (current_index s1) with (current_index s).
  apply runs_bind. apply runs_bind. unfold get_principal. apply runs_gets. change (prin s1 f) with (prin s f).
  apply runs_bind. eapply runs_lift.
  { apply int_chk_run. rewrite up_ceil by lia. exact R3. }
  apply runs_bind. unfold set_principal. apply runs_modify. apply runs_bind, runs_gets. set (s2 := set st_dollar _ s1).
  assert (F : forall s', st_bank s' = st_bank s1 -> total_principal s' = total_principal s ->
    runs (decrement_total_principal (up x (current_index s));;; add_coins ModuleA x;;; modify (fun s0 => s0 <| st_bank; bk_sends ::= Z.succ |>)) s'
     (fun s' _ => runs (burn_coins x) s' Q)).
  { intros s' E1 E2. apply runs_bind. unfold decrement_total_principal. apply runs_bind, runs_gets, runs_bind. eapply runs_lift.
    { apply int_safe_sub_run. rewrite up_ceil by lia. change (int_range (total_principal s' - ceil_div (x * unit_index) (current_index s))). rewrite E2. exact R2. }
    apply runs_modify. set (s3 := set st_dollar _ s'). apply runs_bind. unfold add_coins. apply runs_bind, runs_gets, runs_bind.
    assert (EM : bal s3 ModuleA = 0).
    { subst s3. unfold bal. cbn. rewrite E1. subst s1. cbn. by rewrite lookup_insert_ne by done. }
    eapply runs_lift; [apply int_chk_run|].
    { rewrite EM. clear -R1 Hx Hi. unfold int_range, unit_index in *. lia. }
    unfold set_bal. apply runs_modify. apply runs_modify. unfold burn_coins. rewrite (proj2 (Z.eqb_neq x 0)) by lia.
    apply runs_bind. unfold sub_coins. apply runs_bind, runs_gets.
    match goal with |- runs (if ?b then _ else _) _ _ => replace b with false end.
    - unfold set_bal. apply runs_modify, runs_modify, HQ.
    - symmetry. apply Z.ltb_ge. rewrite EM. unfold bal. cbn. rewrite lookup_insert. cbn. lia. }
  apply runs_whenb; intros _; [unfold decrement_total_holders; apply runs_modify|].
  - apply runs_unbind. by apply F.
  - apply runs_unbind. by apply F.
Qed.
Theorem transfer_accepted c s b chain tok rc x : chain_ok c -> reachable c s ->
  p_paused (st_portal s) = false -> is_Some (p_peers (st_portal s) !! chain) -> is_Some (p_paths (st_portal s) !! (chain, tok)) ->
  wide rc -> blen (c_raw c (AUser b)) <= 32 -> 0 <= x < 2 ^ 63 -> x <= bal s (AUser b) -> redeem_in_range s (AUser b) x ->
  exists s', exec c (OpTransfer true (c_enc c (AUser b)) chain tok rc (Some x)) s = Ok s' tt.
Proof.
  intros Hc Hr Hp [pr Hpr] Hpath Hrc Hraw Hx Hb Hrange.
  pose proof (reach_w _ _ Hc Hr) as Hw. pose proof (wf_index _ _ Hw) as Hidx.
  set (m := exec c _). enough (runs m s (fun _ _ => True)) as H.
  { apply runs_ok in H as (s' & [] & H & _). eauto. }
  subst m. cbn [exec]. unfold signed. rewrite (codec_roundtrip _ (ok_codec _ Hc)). unfold transfer.
  apply runs_bind, runs_gets. rewrite Hp. apply runs_bind, runs_gets. rewrite Hpr. apply runs_bind, runs_gets.
  rewrite bool_decide_true by done. cbn [negb]. unfold wide in Hrc. rewrite Hrc. cbn [Z.eqb Pos.eqb negb].
  apply runs_bind. unfold get_index. apply runs_gets. apply runs_bind. eapply runs_lift.
  { unfold int_uint64. rewrite (proj2 (Z.leb_le 0 x)), (proj2 (Z.ltb_lt x _)) by lia. reflexivity. }
  rewrite (codec_roundtrip _ (ok_codec _ Hc)). apply runs_bind. eapply runs_lift.
  { unfold pad32. rewrite (proj2 (Z.ltb_ge _ _)) by lia. reflexivity. }
  apply runs_bind. unfold increment_nonce. apply runs_bind, runs_gets, runs_bind, runs_modify, runs_ret. apply runs_bind. eapply runs_lift.
  { unfold pad32, blen. rewrite be_encode_length. reflexivity. }
  apply runs_bind. apply burn_run; try done; try lia; [apply Hw|apply Hidx|destruct Hrange; by constructor|].
  intros s'. cbn [negb]. apply runs_bind, runs_modify, runs_bind. eapply runs_lift.
  { unfold int_int64. rewrite (proj2 (Z.leb_le _ x)), (proj2 (Z.ltb_lt x _)) by lia. reflexivity. }
  by apply runs_ret.
Qed.
