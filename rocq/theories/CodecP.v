(** Facts about the message codecs. *)
From Verif Require Export Codec.
From Verif Require Import SendP.
From Coq Require Import Lia.

(** * Bytes and integers *)
Lemma Z_of_byte_range b : 0 <= Z_of_byte b < 256.
Proof. unfold Z_of_byte. destruct b; cbn; lia. Qed.
Lemma Z_of_byte_of_Z z : Z_of_byte (byte_of_Z z) = z mod 256.
Proof.
  unfold Z_of_byte, byte_of_Z. assert (0 <= z mod 256 < 256) as H by (apply Z.mod_pos_bound; lia).
  revert H. generalize (z mod 256). intros n Hn.
  destruct (Coq.Strings.Byte.of_N (Z.to_N n)) eqn:E.
  - apply Coq.Strings.Byte.to_of_N in E. rewrite E. lia.
  - apply Coq.Strings.Byte.of_N_None_iff in E. lia.
Qed.
Lemma byte_of_Z_of_byte b : byte_of_Z (Z_of_byte b) = b.
Proof.
  unfold byte_of_Z. rewrite Z.mod_small by apply Z_of_byte_range. unfold Z_of_byte.
  rewrite N2Z.id, Coq.Strings.Byte.of_to_N. done.
Qed.
Lemma be_encode_length n z : length (be_encode n z) = n.
Proof. revert z. induction n as [|n IH]; intros z; cbn; [done|]. by rewrite IH. Qed.
Lemma be_decode_acc bs acc : fold_left (fun acc b => acc * 256 + Z_of_byte b) bs acc
  = acc * 256 ^ Z.of_nat (length bs) + be_decode bs.
Proof.
  unfold be_decode. revert acc. induction bs as [|b bs IH]; intros acc; cbn [fold_left length]; [cbn; lia|].
  rewrite IH, (IH (0 * 256 + _)). rewrite Nat2Z.inj_succ, Z.pow_succ_r by lia. lia.
Qed.
Lemma be_decode_cons b bs : be_decode (b :: bs) = Z_of_byte b * 256 ^ Z.of_nat (length bs) + be_decode bs.
Proof. unfold be_decode at 1. cbn [fold_left]. rewrite be_decode_acc. lia. Qed.
Lemma be_decode_encode n z : be_decode (be_encode n z) = z mod 256 ^ Z.of_nat n.
Proof.
  induction n as [|n IH]; [cbn; by rewrite Z.mod_1_r|]. cbn [be_encode]. rewrite be_decode_cons, be_encode_length, IH, Z_of_byte_of_Z.
  rewrite Nat2Z.inj_succ, Z.pow_succ_r by lia. rewrite (Z.mul_comm 256). rewrite Z.rem_mul_r by lia. lia.
Qed.
Lemma be_decode_range bs : 0 <= be_decode bs < 256 ^ Z.of_nat (length bs).
Proof.
  induction bs as [|b bs IH]; [cbn; lia|]. rewrite be_decode_cons. cbn [length].
  rewrite Nat2Z.inj_succ, Z.pow_succ_r by lia. pose proof (Z_of_byte_range b). nia.
Qed.
Lemma be_encode_mod n z : be_encode n (z mod 256 ^ Z.of_nat n) = be_encode n z.
Proof.
  enough (forall k w, (n <= k)%nat -> be_encode n (w mod 256 ^ Z.of_nat k) = be_encode n w) by auto.
  clear z. induction n as [|n IH]; intros k w Hk; [done|]. cbn [be_encode]. rewrite IH by lia. f_equal.
  rewrite <- (byte_of_Z_of_byte (byte_of_Z (w / 256 ^ Z.of_nat n))), <- (byte_of_Z_of_byte (byte_of_Z (_ / 256 ^ Z.of_nat n))).
  rewrite !Z_of_byte_of_Z. f_equal.
  replace (Z.of_nat k) with (Z.of_nat n + 1 + Z.of_nat (k - S n)) by lia.
  rewrite !Z.pow_add_r by lia. change (256 ^ 1) with 256. set (P := 256 ^ Z.of_nat n). set (Q := 256 ^ Z.of_nat (k - S n)).
  assert (0 < P) by (unfold P; lia). assert (0 < Q) by (unfold Q; lia).
  rewrite <- Z.mul_assoc. rewrite Z.rem_mul_r by lia. rewrite Z.add_comm, Z.mul_comm, Z.div_add_l by lia.
  rewrite (Z.div_small (w mod P)) by (apply Z.mod_pos_bound; lia). rewrite Z.add_0_r.
  rewrite Z.rem_mul_r by lia. rewrite (Z.mul_comm 256 (_ mod _)), Z.mod_add by lia. by rewrite Z.mod_mod by lia.
Qed.
Lemma be_encode_decode bs : be_encode (length bs) (be_decode bs) = bs.
Proof.
  induction bs as [|b bs IH]; [done|]. cbn [length be_encode]. rewrite be_decode_cons.
  pose proof (be_decode_range bs) as H. f_equal.
  - rewrite Z.div_add_l by lia. rewrite (Z.div_small (be_decode bs)) by done. rewrite Z.add_0_r. apply byte_of_Z_of_byte.
  - rewrite <- be_encode_mod, Z.add_comm, Z.mod_add by lia. by rewrite be_encode_mod.
Qed.
Lemma be_encode_inj n x y : 0 <= x < 256 ^ Z.of_nat n -> 0 <= y < 256 ^ Z.of_nat n -> be_encode n x = be_encode n y -> x = y.
Proof.
  intros Hx Hy H. apply (f_equal be_decode) in H. rewrite !be_decode_encode in H. by rewrite !Z.mod_small in H.
Qed.
Lemma be_decode_encode_small n z : 0 <= z < 256 ^ Z.of_nat n -> be_decode (be_encode n z) = z.
Proof. intros. rewrite be_decode_encode. by rewrite Z.mod_small. Qed.

(** * Slices *)
Definition sl_wf (s : slice) : Prop := 0 <= sl_len s <= sl_cap s.
Lemma sl_of_wf bs : sl_wf (sl_of bs).
Proof. unfold sl_wf, sl_of, sl_cap. cbn. lia. Qed.
Lemma sl_of_bytes bs : sl_bytes (sl_of bs) = bs.
Proof. unfold sl_bytes, sl_of. cbn. rewrite Nat2Z.id. by rewrite take_ge. Qed.
Lemma sl_bytes_length s : sl_wf s -> blen (sl_bytes s) = sl_len s.
Proof. intros [? ?]. unfold blen, sl_bytes, sl_cap in *. rewrite take_length. lia. Qed.
(** [s[a:b]] inside the length. *)
Lemma sl_sub_in s a b : sl_wf s -> 0 <= a <= b -> b <= sl_len s ->
  exists t, sl_sub s a b = Some t /\ sl_wf t /\ sl_len t = b - a /\
    sl_bytes t = take (Z.to_nat (b - a)) (drop (Z.to_nat a) (sl_bytes s)) /\ sl_cap t = sl_cap s - a.
Proof.
  intros [H1 H2] Ha Hb. unfold sl_sub.
  rewrite (proj2 (Z.leb_le 0 a)), (proj2 (Z.leb_le a b)), (proj2 (Z.leb_le b (sl_cap s))) by lia. cbn [andb].
  eexists. split; [done|]. unfold sl_wf, sl_cap, sl_bytes in *. cbn [sl_buf sl_len]. rewrite drop_length.
  split; [lia|]. split; [done|]. split; [|lia]. rewrite skipn_firstn_comm, take_take. f_equal. lia.
Qed.
Lemma sl_split s a b xs ys zs : sl_wf s -> sl_bytes s = xs ++ ys ++ zs -> blen xs = a -> blen ys = b - a ->
  exists t, sl_sub s a b = Some t /\ sl_wf t /\ sl_bytes t = ys /\ sl_len t = b - a.
Proof.
  intros Hw E Ha Hb. pose proof (sl_bytes_length s Hw) as HL. rewrite E in HL. unfold blen in *. rewrite !app_length in HL.
  destruct (sl_sub_in s a b) as (t & Ht & Hwt & Hlt & Hbt & _); [done|lia|lia|]. exists t. repeat (split; [done|]). split; [|done].
  rewrite Hbt, E. rewrite <- Ha at 2. rewrite Nat2Z.id, drop_app, <- Hb, Nat2Z.id, take_app. done.
Qed.
Lemma sl_split_from s a xs ys : sl_wf s -> sl_bytes s = xs ++ ys -> blen xs = a ->
  exists t, sl_from s a = Some t /\ sl_wf t /\ sl_bytes t = ys /\ sl_len t = blen ys.
Proof.
  intros Hw E Ha. pose proof (sl_bytes_length s Hw) as HL. rewrite E in HL. unfold sl_from.
  destruct (sl_split s a (sl_len s) xs ys []) as (t & ? & ? & ? & ?); [done|by rewrite app_nil_r|done| |].
  - unfold blen in *. rewrite app_length in HL. lia.
  - exists t. repeat (split; [done|]). unfold blen in *. rewrite app_length in HL. lia.
Qed.
(** The converse: what was read is in the bytes. *)
Lemma sl_sub_inv s a b t : sl_sub s a b = Some t -> b <= sl_len s -> sl_wf s ->
  0 <= a <= b /\ sl_wf t /\ sl_len t = b - a /\ sl_bytes t = take (Z.to_nat (b - a)) (drop (Z.to_nat a) (sl_bytes s)).
Proof.
  intros H Hb Hw. assert (0 <= a <= b).
  { unfold sl_sub in H. destruct (Z.leb_spec 0 a), (Z.leb_spec a b); try done; lia. }
  destruct (sl_sub_in s a b Hw) as (t' & Ht & ? & ? & ? & ?); [done|done|]. by simplify_eq.
Qed.

Ltac sizes := unfold blen in *; rewrite ?app_length, ?be_encode_length, ?cons_length in *; cbn [length Z.of_nat] in *; lia.

Lemma wrap_u16_len {A} (l : list A) : Z.of_nat (length l) < 65536 -> wrap_u16 (Z.of_nat (length l)) = Z.of_nat (length l).
Proof. intros. unfold wrap_u16. apply Z.mod_small. lia. Qed.
Lemma sl_uint_be s n z : sl_bytes s = be_encode n z -> 0 <= z < 256 ^ Z.of_nat n -> sl_uint s = z.
Proof. intros H Hz. unfold sl_uint. rewrite H. by apply be_decode_encode_small. Qed.

(** * Round trips: parsing an encoding *)
Theorem transceiver_roundtrip m s : sl_wf s -> sl_bytes s = encode_transceiver m ->
  blen (tm_source m) = 32 -> blen (tm_recipient m) = 32 -> blen (tm_manager m) < 65536 -> blen (tm_payload m) < 65536 ->
  exists p, parse_transceiver s = POk p /\ sl_bytes (tp_source p) = tm_source m /\ sl_bytes (tp_recipient p) = tm_recipient m /\
    sl_bytes (tp_manager p) = tm_manager m /\ sl_bytes (tp_payload p) = tm_payload m /\
    sl_wf (tp_source p) /\ sl_wf (tp_recipient p) /\ sl_wf (tp_manager p) /\ sl_wf (tp_payload p).
Proof.
  intros Hw E H1 H2 H3 H4. unfold encode_transceiver in E. unfold parse_transceiver.
  assert (Hm : wrap_u16 (blen (tm_manager m)) = blen (tm_manager m)) by (apply wrap_u16_len; sizes).
  assert (Hp : wrap_u16 (blen (tm_payload m)) = blen (tm_payload m)) by (apply wrap_u16_len; sizes).
  rewrite Hm, Hp in E.
  set (L1 := be_encode 2 (blen (tm_manager m))) in *. set (L2 := be_encode 2 (blen (tm_payload m))) in *.
  assert (HL1 : length L1 = 2%nat) by apply be_encode_length. assert (HL2 : length L2 = 2%nat) by apply be_encode_length.
  destruct (sl_split s 0 4 [] transceiver_prefix (tm_source m ++ tm_recipient m ++ L1 ++ tm_manager m ++ L2 ++ tm_payload m)) as (t0 & -> & Hw0 & Hb0 & _);
    [done|by rewrite E|done|done|]. cbn [of_slice pbind]. rewrite Hb0. rewrite bool_decide_true by done. cbn [negb].
  assert (HT : length transceiver_prefix = 4%nat) by done.
  destruct (sl_split s 4 36 transceiver_prefix (tm_source m) (tm_recipient m ++ L1 ++ tm_manager m ++ L2 ++ tm_payload m)) as (t1 & -> & Hw1 & Hb1 & _);
    [done|by rewrite E|done|done|]. cbn [of_slice pbind].
  destruct (sl_split s 36 68 (transceiver_prefix ++ tm_source m) (tm_recipient m) (L1 ++ tm_manager m ++ L2 ++ tm_payload m)) as (t2 & -> & Hw2 & Hb2 & _);
    [done|by rewrite E, <- ?app_assoc|sizes|done|]. cbn [of_slice pbind].
  destruct (sl_split s 68 70 (transceiver_prefix ++ tm_source m ++ tm_recipient m) L1 (tm_manager m ++ L2 ++ tm_payload m)) as (t3 & -> & Hw3 & Hb3 & _);
    [done|by rewrite E, <- ?app_assoc|sizes|sizes|]. cbn [of_slice pbind].
  rewrite (sl_uint_be t3 2 (blen (tm_manager m)) Hb3) by (change (256 ^ Z.of_nat 2) with 65536; unfold blen in *; lia).
  destruct (sl_split s 70 (70 + blen (tm_manager m)) (transceiver_prefix ++ tm_source m ++ tm_recipient m ++ L1) (tm_manager m) (L2 ++ tm_payload m)) as (t4 & -> & Hw4 & Hb4 & _);
    [done|by rewrite E, <- ?app_assoc|sizes|lia|]. cbn [of_slice pbind].
  destruct (sl_split s (70 + blen (tm_manager m)) (70 + blen (tm_manager m) + 2) (transceiver_prefix ++ tm_source m ++ tm_recipient m ++ L1 ++ tm_manager m) L2 (tm_payload m)) as (t5 & -> & Hw5 & Hb5 & _);
    [done|by rewrite E, <- ?app_assoc|sizes|sizes|]. cbn [of_slice pbind].
  rewrite (sl_uint_be t5 2 (blen (tm_payload m)) Hb5) by (change (256 ^ Z.of_nat 2) with 65536; unfold blen in *; lia).
  destruct (sl_split s (70 + blen (tm_manager m) + 2) (70 + blen (tm_manager m) + 2 + blen (tm_payload m)) (transceiver_prefix ++ tm_source m ++ tm_recipient m ++ L1 ++ tm_manager m ++ L2) (tm_payload m) []) as (t6 & -> & Hw6 & Hb6 & _);
    [done|by rewrite E, <- ?app_assoc, ?app_nil_r|sizes|lia|]. cbn [of_slice pbind].
  eexists. split; [done|]. cbn. auto 10.
Qed.

Theorem manager_roundtrip m s : sl_wf s -> sl_bytes s = encode_manager m ->
  blen (mm_id m) = 32 -> blen (mm_sender m) = 32 -> blen (mm_payload m) < 65536 ->
  exists p, parse_manager s = POk p /\ sl_bytes (mp_id p) = mm_id m /\ sl_bytes (mp_sender p) = mm_sender m /\
    sl_bytes (mp_payload p) = mm_payload m /\ sl_wf (mp_id p) /\ sl_wf (mp_sender p) /\ sl_wf (mp_payload p).
Proof.
  intros Hw E H1 H2 H3. unfold encode_manager in E. unfold parse_manager.
  assert (Hp : wrap_u16 (blen (mm_payload m)) = blen (mm_payload m)) by (apply wrap_u16_len; sizes). rewrite Hp in E.
  set (L1 := be_encode 2 (blen (mm_payload m))) in *. assert (HL1 : length L1 = 2%nat) by apply be_encode_length.
  pose proof (sl_bytes_length s Hw) as HL. rewrite E in HL.
  destruct (Z.ltb_spec (sl_len s) 66); [exfalso; sizes|].
  destruct (sl_split s 0 32 [] (mm_id m) (mm_sender m ++ L1 ++ mm_payload m)) as (t0 & -> & Hw0 & Hb0 & _); [done|by rewrite E|done|done|]. cbn [of_slice pbind].
  destruct (sl_split s 32 64 (mm_id m) (mm_sender m) (L1 ++ mm_payload m)) as (t1 & -> & Hw1 & Hb1 & _); [done|by rewrite E|done|done|]. cbn [of_slice pbind].
  destruct (sl_split s 64 66 (mm_id m ++ mm_sender m) L1 (mm_payload m)) as (t2 & -> & Hw2 & Hb2 & _); [done|by rewrite E, <- ?app_assoc|sizes|sizes|]. cbn [of_slice pbind].
  destruct (sl_split_from s 66 (mm_id m ++ mm_sender m ++ L1) (mm_payload m)) as (t3 & -> & Hw3 & Hb3 & Hl3); [done|by rewrite E, <- ?app_assoc|sizes|]. cbn [of_slice pbind].
  rewrite (sl_uint_be t2 2 (blen (mm_payload m)) Hb2) by (change (256 ^ Z.of_nat 2) with 65536; unfold blen in *; lia).
  rewrite Hl3, Z.eqb_refl. cbn [negb]. eexists. split; [done|]. cbn. auto 10.
Qed.

Theorem ntt_roundtrip n s : sl_wf s -> sl_bytes s = encode_ntt n ->
  0 <= n_amount n < 2 ^ 64 -> blen (n_source_token n) = 32 -> blen (n_to n) = 32 -> 0 <= n_to_chain n < 2 ^ 16 ->
  blen (n_additional n) < 65536 ->
  exists p, parse_ntt s = POk p /\ np_amount p = n_amount n /\ sl_bytes (np_source_token p) = n_source_token n /\
    sl_bytes (np_to p) = n_to n /\ np_to_chain p = n_to_chain n /\ sl_bytes (np_additional p) = n_additional n /\
    sl_wf (np_source_token p) /\ sl_wf (np_to p) /\ sl_wf (np_additional p).
Proof.
  intros Hw E H1 H2 H3 H4 H5. unfold encode_ntt in E. unfold parse_ntt.
  assert (Hp : wrap_u16 (blen (n_additional n)) = blen (n_additional n)) by (apply wrap_u16_len; sizes). rewrite Hp in E.
  set (A := be_encode 8 (n_amount n)) in *. assert (HA : length A = 8%nat) by apply be_encode_length.
  set (C := be_encode 2 (n_to_chain n)) in *. assert (HC : length C = 2%nat) by apply be_encode_length.
  set (D := [byte_of_Z 6]) in *. assert (HD : length D = 1%nat) by done.
  set (P := ntt_prefix) in *. assert (HP : length P = 4%nat) by done.
  set (L := be_encode 2 (blen (n_additional n))) in *. assert (HLL : length L = 2%nat) by apply be_encode_length.
  set (R := if 0 <? blen (n_additional n) then _ else _) in *.
  assert (HR : 0 < blen (n_additional n) /\ R = L ++ n_additional n \/ n_additional n = [] /\ R = []).
  { subst R. destruct (Z.ltb_spec 0 (blen (n_additional n))); [auto|]. right.
    destruct (n_additional n); [done|unfold blen in *; cbn in *; lia]. }
  clearbody R.
  pose proof (sl_bytes_length s Hw) as HL. rewrite E in HL.
  destruct (Z.ltb_spec (sl_len s) 79); [exfalso; sizes|].
  destruct (sl_split s 0 4 [] P (D ++ A ++ n_source_token n ++ n_to n ++ C ++ R)) as (t0 & -> & Hw0 & Hb0 & _); [done|by rewrite E|done|done|]. cbn [of_slice pbind].
  rewrite Hb0, bool_decide_true by done. cbn [negb].
  destruct (sl_split s 5 13 (P ++ D) A (n_source_token n ++ n_to n ++ C ++ R)) as (t1 & -> & Hw1 & Hb1 & _); [done|by rewrite E, <- ?app_assoc|done|sizes|]. cbn [of_slice pbind].
  destruct (sl_split s 13 45 (P ++ D ++ A) (n_source_token n) (n_to n ++ C ++ R)) as (t2 & -> & Hw2 & Hb2 & _); [done|by rewrite E, <- ?app_assoc|sizes|sizes|]. cbn [of_slice pbind].
  destruct (sl_split s 45 77 (P ++ D ++ A ++ n_source_token n) (n_to n) (C ++ R)) as (t3 & -> & Hw3 & Hb3 & _); [done|by rewrite E, <- ?app_assoc|sizes|sizes|]. cbn [of_slice pbind].
  destruct (sl_split s 77 79 (P ++ D ++ A ++ n_source_token n ++ n_to n) C R) as (t4 & -> & Hw4 & Hb4 & _); [done|by rewrite E, <- ?app_assoc|sizes|sizes|]. cbn [of_slice pbind].
  rewrite (sl_uint_be t1 8 (n_amount n) Hb1) by done. rewrite (sl_uint_be t4 2 (n_to_chain n) Hb4) by done.
  destruct HR as [[Hne HR]|[Hn HR]]; rewrite HR in E, HL.
  - destruct (Z.ltb_spec 79 (sl_len s)); [|exfalso; sizes]. destruct (Z.ltb_spec (sl_len s) 81); [exfalso; sizes|].
    destruct (sl_split s 79 81 (P ++ D ++ A ++ n_source_token n ++ n_to n ++ C) L (n_additional n)) as (t5 & -> & Hw5 & Hb5 & _); [done|by rewrite E, <- ?app_assoc|sizes|sizes|]. cbn [of_slice pbind].
    destruct (sl_split_from s 81 (P ++ D ++ A ++ n_source_token n ++ n_to n ++ C ++ L) (n_additional n)) as (t6 & -> & Hw6 & Hb6 & Hl6); [done|by rewrite E, <- ?app_assoc|sizes|]. cbn [of_slice pbind].
    rewrite (sl_uint_be t5 2 (blen (n_additional n)) Hb5) by (change (256 ^ Z.of_nat 2) with 65536; unfold blen in *; lia).
    rewrite Hl6, Z.eqb_refl. cbn [negb]. eexists. split; [done|]. cbn. auto 12.
  - destruct (Z.ltb_spec 79 (sl_len s)); [exfalso; sizes|].
    assert (sl_wf sl_nil) by (unfold sl_wf, sl_cap, sl_nil; cbn; lia). eexists. split; [done|]. cbn. rewrite Hn. auto 12.
Qed.

Lemma wrap_i64_u64 z : - 2 ^ 63 <= z < 2 ^ 63 -> wrap_i64 (wrap_u64 z) = z.
Proof.
  intros H. unfold wrap_i64, wrap_u64. rewrite Zplus_mod_idemp_l. rewrite Z.mod_small; lia.
Qed.
Lemma wrap_u64_range z : 0 <= wrap_u64 z < 2 ^ 64.
Proof. unfold wrap_u64. apply Z.mod_pos_bound. lia. Qed.
Theorem additional_roundtrip i tok s : sl_wf s -> sl_bytes s = encode_additional i tok ->
  - 2 ^ 63 <= i < 2 ^ 63 -> blen tok = 32 -> exists t, decode_additional s = POk (i, t) /\ sl_bytes t = tok /\ sl_wf t.
Proof.
  intros Hw E Hi Ht. unfold encode_additional in E. unfold decode_additional.
  set (A := be_encode 8 (wrap_u64 i)) in *. assert (HA : length A = 8%nat) by apply be_encode_length.
  pose proof (sl_bytes_length s Hw) as HL. rewrite E in HL. destruct (Z.ltb_spec (sl_len s) 40); [exfalso; sizes|].
  destruct (sl_split s 0 8 [] A tok) as (t0 & -> & Hw0 & Hb0 & _); [done|by rewrite E|done|sizes|]. cbn [of_slice pbind].
  destruct (sl_split s 8 40 A tok []) as (t1 & -> & Hw1 & Hb1 & _); [done|by rewrite E, app_nil_r|sizes|sizes|]. cbn [of_slice pbind].
  rewrite (sl_uint_be t0 8 (wrap_u64 i) Hb0) by apply wrap_u64_range. rewrite wrap_i64_u64 by done. eauto.
Qed.
Theorem index_roundtrip i d s : sl_wf s -> sl_bytes s = encode_index_payload i d ->
  - 2 ^ 63 <= i < 2 ^ 63 -> 0 <= d < 2 ^ 16 -> get_payload_type s = POk PTIndex /\ decode_index_payload s = POk (i, d).
Proof.
  intros Hw E Hi Hd. unfold encode_index_payload in E. unfold decode_index_payload, get_payload_type.
  set (A := be_encode 8 (wrap_u64 i)) in *. assert (HA : length A = 8%nat) by apply be_encode_length.
  set (D := be_encode 2 d) in *. assert (HD : length D = 2%nat) by apply be_encode_length.
  assert (HP : length index_prefix = 4%nat) by done.
  pose proof (sl_bytes_length s Hw) as HL. rewrite E in HL.
  split.
  - destruct (Z.ltb_spec (sl_len s) 4); [exfalso; sizes|].
    destruct (sl_split s 0 4 [] index_prefix (A ++ D)) as (t0 & -> & Hw0 & Hb0 & _); [done|by rewrite E|done|done|]. cbn [of_slice pbind].
    rewrite Hb0. reflexivity.
  - destruct (sl_split s 4 12 index_prefix A D) as (t0 & -> & Hw0 & Hb0 & _); [done|by rewrite E|done|sizes|]. cbn [of_slice pbind].
    destruct (sl_split s 12 14 (index_prefix ++ A) D []) as (t1 & -> & Hw1 & Hb1 & _); [done|by rewrite E, app_nil_r, <- app_assoc|sizes|sizes|]. cbn [of_slice pbind].
    rewrite (sl_uint_be t0 8 (wrap_u64 i) Hb0) by apply wrap_u64_range. rewrite wrap_i64_u64 by done.
    by rewrite (sl_uint_be t1 2 d Hb1).
Qed.
(** A token payload: transfer with additional payload. *)
Theorem token_roundtrip amount source to chain i tok s : sl_wf s ->
  sl_bytes s = encode_ntt (mk_ntt amount source to chain (encode_additional i tok)) ->
  0 <= amount < 2 ^ 64 -> blen source = 32 -> blen to = 32 -> 0 <= chain < 2 ^ 16 -> - 2 ^ 63 <= i < 2 ^ 63 -> blen tok = 32 ->
  get_payload_type s = POk PTToken /\
  exists t, decode_token_payload s = POk t /\ tk_amount t = amount /\ tk_index t = i /\ sl_bytes (tk_recipient t) = drop 12 to /\
    tk_chain t = chain /\ sl_bytes (tk_token t) = tok.
Proof.
  intros Hw E Ha Hs Ht Hc Hi Hk.
  assert (HL : blen (encode_additional i tok) = 40) by (unfold encode_additional; sizes).
  destruct (ntt_roundtrip _ s Hw E) as (p & Hp & H1 & H2 & H3 & H4 & H5 & H6 & H7 & H8); cbn [n_amount n_source_token n_to n_to_chain n_additional] in *; auto; [lia|]. split.
  - unfold get_payload_type. pose proof (sl_bytes_length s Hw) as HL'. rewrite E in HL'. unfold encode_ntt in HL'. cbn [n_amount n_source_token n_to n_to_chain n_additional] in HL'.
    assert (length ntt_prefix = 4%nat) by done.
    destruct (Z.ltb_spec (sl_len s) 4); [exfalso; sizes|].
    cbn [n_amount n_source_token n_to n_to_chain n_additional].
    destruct (sl_split s 0 4 [] ntt_prefix ([byte_of_Z 6] ++ be_encode 8 amount ++ source ++ to ++ be_encode 2 chain
      ++ (if 0 <? blen (encode_additional i tok) then be_encode 2 (wrap_u16 (blen (encode_additional i tok))) ++ encode_additional i tok else []))) as (t0 & -> & Hw0 & Hb0 & _); [done|by rewrite E|done|done|]. cbn [of_slice pbind].
    rewrite Hb0. reflexivity.
  - unfold decode_token_payload. rewrite Hp. cbn [pbind].
    destruct (additional_roundtrip i tok (np_additional p) H8 H5 Hi Hk) as (t & -> & Hb & Hwt). cbn [pbind fst snd].
    destruct (sl_split_from (np_to p) 12 (take 12 to) (drop 12 to)) as (t3 & -> & Hw3 & Hb3 & Hl3); [done|by rewrite take_drop|unfold blen in *; rewrite take_length; lia|].
    cbn [of_slice pbind]. eexists. split; [done|]. cbn. auto 10.
Qed.

(** * Re-encoding what was parsed *)
Lemma take_drop_app {A} (l : list A) a n b : b = (a + n)%nat -> take n (drop a l) ++ drop b l = drop a l.
Proof. intros ->. rewrite <- (take_drop n (drop a l)) at 2. by rewrite drop_drop. Qed.
Lemma sl_from_inv s a t : sl_from s a = Some t -> sl_wf s ->
  0 <= a <= sl_len s /\ sl_wf t /\ sl_len t = sl_len s - a /\ sl_bytes t = drop (Z.to_nat a) (sl_bytes s).
Proof.
  intros H Hw. apply sl_sub_inv in H as (? & ? & Hl & Hb); [|lia|done]. repeat (split; [done|]). rewrite Hb.
  rewrite take_ge; [done|]. rewrite drop_length. pose proof (sl_bytes_length s Hw). unfold blen in *. lia.
Qed.

Ltac open_slice t H :=
  match type of H with
  | context [of_slice (sl_sub ?s ?a ?b)] =>
    let E := fresh "E" in destruct (sl_sub s a b) as [t|] eqn:E; cbn [of_slice pbind] in H; [|done]
  | context [of_slice (sl_from ?s ?a)] =>
    let E := fresh "E" in destruct (sl_from s a) as [t|] eqn:E; cbn [of_slice pbind] in H; [|done]
  end.

Theorem manager_reencode s p : sl_wf s -> parse_manager s = POk p ->
  encode_manager (mk_mm (sl_bytes (mp_id p)) (sl_bytes (mp_sender p)) (sl_bytes (mp_payload p))) = sl_bytes s /\
  blen (sl_bytes (mp_id p)) = 32 /\ blen (sl_bytes (mp_sender p)) = 32 /\ blen (sl_bytes (mp_payload p)) < 65536.
Proof.
  intros Hw H. unfold parse_manager in H. destruct (Z.ltb_spec (sl_len s) 66) as [|Hl]; [done|].
  open_slice t0 H. open_slice t1 H. open_slice t2 H. open_slice t3 H.
  apply sl_sub_inv in E as (_ & W0 & L0 & B0); [|lia|done]. apply sl_sub_inv in E0 as (_ & W1 & L1 & B1); [|lia|done].
  apply sl_sub_inv in E1 as (_ & W2 & L2 & B2); [|lia|done]. apply sl_from_inv in E2 as (_ & W3 & L3 & B3); [|done].
  destruct (Z.eqb_spec (sl_len t3) (sl_uint t2)) as [He|]; [|done]. cbn [negb] in H. injection H as <-. cbn [mp_id mp_sender mp_payload].
  pose proof (sl_bytes_length _ W0) as X0. pose proof (sl_bytes_length _ W1) as X1. pose proof (sl_bytes_length _ W2) as X2. pose proof (sl_bytes_length _ W3) as X3.
  pose proof (be_decode_range (sl_bytes t2)) as HR. fold (sl_uint t2) in HR.
  assert (Hl2 : length (sl_bytes t2) = 2%nat) by (unfold blen in *; lia). rewrite Hl2 in HR. change (256 ^ Z.of_nat 2) with 65536 in HR.
  split; [|lia]. unfold encode_manager. cbn [mm_id mm_sender mm_payload].
  replace (be_encode 2 (wrap_u16 (blen (sl_bytes t3)))) with (sl_bytes t2).
  - rewrite B0, B1, B2, B3. change (Z.to_nat (64 - 32)) with 32%nat. change (Z.to_nat (66 - 64)) with 2%nat. change (Z.to_nat (32 - 0)) with 32%nat.
    change (Z.to_nat 66) with 66%nat. change (Z.to_nat 64) with 64%nat. change (Z.to_nat 32) with 32%nat. change (Z.to_nat 0) with 0%nat.
    rewrite (take_drop_app _ 64 2 66), (take_drop_app _ 32 32 64), drop_0 by done. by rewrite take_drop.
  - rewrite X3, He. unfold wrap_u16. change (2 ^ 16) with 65536. rewrite Z.mod_small by lia. rewrite <- Hl2. symmetry. apply be_encode_decode.
Qed.

(** The decimals byte is not looked at, and a declared additional payload of
    length 0 reads like a missing one. *)
Theorem ntt_reencode s p : sl_wf s -> parse_ntt s = POk p ->
  let n := mk_ntt (np_amount p) (sl_bytes (np_source_token p)) (sl_bytes (np_to p)) (np_to_chain p) (sl_bytes (np_additional p)) in
  (0 <= n_amount n < 2 ^ 64 /\ blen (n_source_token n) = 32 /\ blen (n_to n) = 32 /\ 0 <= n_to_chain n < 2 ^ 16 /\ blen (n_additional n) < 65536) /\
  exists d rest, sl_bytes s = ntt_prefix ++ [d] ++ rest /\
    (encode_ntt n = ntt_prefix ++ [byte_of_Z 6] ++ rest \/
     n_additional n = [] /\ encode_ntt n ++ be_encode 2 0 = ntt_prefix ++ [byte_of_Z 6] ++ rest).
Proof.
  intros Hw H. cbv zeta. unfold parse_ntt in H. destruct (Z.ltb_spec (sl_len s) 79) as [|Hl]; [done|].
  open_slice t0 H. apply sl_sub_inv in E as (_ & W0 & L0 & B0); [|lia|done].
  destruct (bool_decide_reflect (sl_bytes t0 = ntt_prefix)) as [HP|]; [|done]. cbn [negb] in H.
  open_slice t1 H. open_slice t2 H. open_slice t3 H. open_slice t4 H.
  apply sl_sub_inv in E as (_ & W1 & L1 & B1); [|lia|done]. apply sl_sub_inv in E0 as (_ & W2 & L2 & B2); [|lia|done].
  apply sl_sub_inv in E1 as (_ & W3 & L3 & B3); [|lia|done]. apply sl_sub_inv in E2 as (_ & W4 & L4 & B4); [|lia|done].
  pose proof (sl_bytes_length _ W1) as X1. pose proof (sl_bytes_length _ W2) as X2. pose proof (sl_bytes_length _ W3) as X3. pose proof (sl_bytes_length _ W4) as X4.
  pose proof (sl_bytes_length _ Hw) as X.
  assert (A1 : be_encode 8 (sl_uint t1) = sl_bytes t1).
  { replace 8%nat with (length (sl_bytes t1)) by (unfold blen in *; lia). apply be_encode_decode. }
  assert (A4 : be_encode 2 (sl_uint t4) = sl_bytes t4).
  { replace 2%nat with (length (sl_bytes t4)) by (unfold blen in *; lia). apply be_encode_decode. }
  assert (R1 : 0 <= sl_uint t1 < 2 ^ 64).
  { pose proof (be_decode_range (sl_bytes t1)) as HR. replace (Z.of_nat (length (sl_bytes t1))) with 8 in HR by (unfold blen in *; lia). exact HR. }
  assert (R4 : 0 <= sl_uint t4 < 2 ^ 16).
  { pose proof (be_decode_range (sl_bytes t4)) as HR. replace (Z.of_nat (length (sl_bytes t4))) with 2 in HR by (unfold blen in *; lia). exact HR. }
  set (B := sl_bytes s) in *.
  assert (S1 : B = ntt_prefix ++ drop 4 B).
  { rewrite <- (take_drop 4 B) at 1. f_equal. rewrite <- HP, B0. done. }
  destruct (drop 4 B) as [|d rest] eqn:ED.
  { exfalso. apply (f_equal length) in ED. rewrite drop_length in ED. unfold blen in X. cbn in ED. lia. }
  assert (S5 : rest = drop 5 B). { change rest with (drop 1 (d :: rest)). rewrite <- ED, drop_drop. done. }
  assert (SX : rest = sl_bytes t1 ++ sl_bytes t2 ++ sl_bytes t3 ++ sl_bytes t4 ++ drop 79 B).
  { rewrite S5, B1, B2, B3, B4. change (Z.to_nat (13 - 5)) with 8%nat. change (Z.to_nat (45 - 13)) with 32%nat.
    change (Z.to_nat (77 - 45)) with 32%nat. change (Z.to_nat (79 - 77)) with 2%nat. change (Z.to_nat 5) with 5%nat.
    change (Z.to_nat 13) with 13%nat. change (Z.to_nat 45) with 45%nat. change (Z.to_nat 77) with 77%nat.
    rewrite (take_drop_app _ 77 2 79), (take_drop_app _ 45 32 77), (take_drop_app _ 13 32 45), (take_drop_app _ 5 8 13) by done. done. }
  destruct (Z.ltb_spec 79 (sl_len s)) as [Hlong|Hshort].
  - destruct (Z.ltb_spec (sl_len s) 81); [done|]. open_slice t5 H. open_slice t6 H.
    apply sl_sub_inv in E as (_ & W5 & L5 & B5); [|lia|done]. apply sl_from_inv in E0 as (_ & W6 & L6 & B6); [|done].
    destruct (Z.eqb_spec (sl_len t6) (sl_uint t5)) as [He|]; [|done]. cbn [negb] in H. injection H as <-.
    cbn [np_amount np_source_token np_to np_to_chain np_additional].
    pose proof (sl_bytes_length _ W5) as X5. pose proof (sl_bytes_length _ W6) as X6.
    pose proof (be_decode_range (sl_bytes t5)) as HR. fold (sl_uint t5) in HR.
    assert (Hl2 : length (sl_bytes t5) = 2%nat) by (unfold blen in *; lia). rewrite Hl2 in HR. change (256 ^ Z.of_nat 2) with 65536 in HR.
    split; [cbn; repeat split; lia|]. exists d, rest. split; [done|].
    assert (A5 : be_encode 2 (wrap_u16 (blen (sl_bytes t6))) = sl_bytes t5).
    { rewrite X6, He. unfold wrap_u16. change (2 ^ 16) with 65536. rewrite Z.mod_small by lia. rewrite <- Hl2. apply be_encode_decode. }
    assert (S79 : drop 79 B = sl_bytes t5 ++ sl_bytes t6).
    { rewrite B5, B6. change (Z.to_nat (81 - 79)) with 2%nat. change (Z.to_nat 79) with 79%nat. change (Z.to_nat 81) with 81%nat.
      by rewrite (take_drop_app _ 79 2 81). }
    unfold encode_ntt. cbn [n_amount n_source_token n_to n_to_chain n_additional]. rewrite A1, A4, A5.
    destruct (Z.ltb_spec 0 (blen (sl_bytes t6))) as [|Hz].
    + left. rewrite SX, S79. rewrite <- ?app_assoc. done.
    + right. assert (sl_bytes t6 = []) as Hn by (destruct (sl_bytes t6); [done|unfold blen in Hz; cbn in Hz; lia]).
      split; [done|]. rewrite Hn in *. change (be_encode 2 (wrap_u16 (blen []))) with (be_encode 2 0) in A5.
      rewrite SX, S79, A5, !app_nil_r. rewrite <- ?app_assoc. done.
  - injection H as <-. cbn [np_amount np_source_token np_to np_to_chain np_additional].
    split; [cbn; unfold blen in *; cbn; repeat split; lia|]. exists d, rest. split; [done|]. left.
    unfold encode_ntt. cbn [n_amount n_source_token n_to n_to_chain n_additional]. rewrite A1, A4.
    change (0 <? blen (sl_bytes sl_nil)) with false. cbv iota. rewrite SX.
    assert (drop 79 B = []) as ->; [|done]. apply nil_length_inv. rewrite drop_length. unfold blen in X. lia.
Qed.

(** * The digest *)
Theorem preimage_injective ch m ch' m' : 0 <= ch < 2 ^ 16 -> 0 <= ch' < 2 ^ 16 ->
  blen (mm_id m) = 32 -> blen (mm_id m') = 32 -> blen (mm_sender m) = 32 -> blen (mm_sender m') = 32 ->
  digest_preimage ch m = digest_preimage ch' m' <-> ch = ch' /\ m = m'.
Proof.
  intros Hc Hc' H1 H1' H2 H2'. split; [|intros [-> ->]; done].
  unfold digest_preimage, encode_manager. intros H.
  apply app_inj_1 in H as [E H]; [|by rewrite !be_encode_length]. apply be_encode_inj in E; [|done|done].
  apply app_inj_1 in H as [E1 H]; [|unfold blen in *; lia]. apply app_inj_1 in H as [E2 H]; [|unfold blen in *; lia].
  apply app_inj_1 in H as [_ E3]; [|by rewrite !be_encode_length].
  split; [done|]. destruct m, m'; cbn in *; congruence.
Qed.
