(** Exact effects of issuance, redemption, IBC and hyperlane messages. *)
From Verif Require Import PortalP.
From Verif Require Export SolvencyP FlexLiveP.

Lemma ceil_zero i : ceil_div (0 * unit_index) i = 0.
Proof. unfold ceil_div. by rewrite Z.mul_0_l, Z.opp_0, Zdiv_0_l. Qed.
Lemma tp_issued' s to amt : 0 <= amt -> to <> ModuleA -> 0 < current_index s ->
  total_principal (issued s to amt) = total_principal s + (if decide (to = YieldA) then 0 else ceil_div (amt * unit_index) (current_index s)).
Proof.
  intros Ha Ht Hi. destruct (decide (amt = 0)) as [->|Hne].
  - unfold issued. cbn [Z.ltb Z.compare]. rewrite ceil_zero. case_decide; lia.
  - rewrite tp_issued by (lia || done). by rewrite up_ceil by lia.
Qed.
Lemma tp_burned' s from amt : 0 <= amt -> ordinary from -> 0 < current_index s ->
  total_principal (burned s from amt) = total_principal s - ceil_div (amt * unit_index) (current_index s).
Proof.
  intros Ha Ho Hi. destruct (decide (amt = 0)) as [->|Hne].
  - unfold burned. cbn [Z.ltb Z.compare]. rewrite ceil_zero. lia.
  - rewrite tp_burned by (lia || done). by rewrite up_ceil by lia.
Qed.
Lemma tried_total c i s s' : index_tried c i s s' -> good_collector s -> total_principal s' = total_principal s.
Proof.
  intros [[_ ->]|(_ & n & d & _ & Hn & _ & H)] Hg; [done|].
  destruct (upd_frame' _ _ _ _ H) as (_ & _ & _ & _ & _ & _ & _ & _ & -> & _); [by apply accrued_good|]. apply frame_accrued.
Qed.

Theorem issue_books c s s' x bz t : chain_ok c -> reachable c s -> carried_token c bz = Some t ->
  exec c (OpDeliver x bz) s = Ok s' tt ->
  let r := c_acct c (sl_bytes (tk_recipient t)) in
  total_principal s' = total_principal s
    + (if decide (r = YieldA) then 0 else ceil_div (tk_amount t * unit_index) (current_index s')) /\
  (tk_index t <= current_index s ->
     (forall a, bal s' a = bal s a + on a r (tk_amount t)) /\
     (forall a, prin s' a = prin s a + (if decide (r = YieldA) then 0 else on a r (floor_div (tk_amount t * unit_index) (current_index s)))) /\
     supply s' = supply s + tk_amount t /\ current_index s' = current_index s /\
     ds_yield (d_stats (st_dollar s')) = ds_yield (d_stats (st_dollar s)) /\
     d_ext_yield (st_dollar s') = d_ext_yield (st_dollar s) /\ d_retry (st_dollar s') = d_retry (st_dollar s) /\
     d_paused (st_dollar s') = d_paused (st_dollar s) /\ d_recipients (st_dollar s') = d_recipients (st_dollar s) /\
     st_portal s' = st_portal s /\ st_vaults s' = st_vaults s /\
     exists v, c_vaa c bz = Some v /\ st_world s' = st_world s <| x_vaas := {[va_digest v]} ∪ x_vaas (st_world s) |>).
Proof.
  intros Hc Hr HT E r. pose proof (reach_w _ _ Hc Hr) as Hw. pose proof (wf_index _ _ Hw) as Hidx.
  pose proof (index_token _ _ _ _ _ _ Hc Hr HT E) as Hmax.
  destruct (deliver_inv' _ _ _ _ _ Hc Hw E) as (v & pl & [A1 A2 A3 (pr & t' & m' & B1 & B2 & B3 & B4 & B5 & B6 & ->)] & Hh).
  unfold carried_token, carried in HT. rewrite A2, B3, B6 in HT.
  inversion Hh as [H1|i s1 H1|k s1 H1 H2 H3 H4 H5 H6 H7 H8 H9]; rewrite H1 in HT; [done|done|].
  rewrite H2 in HT. injection HT as ->. fold r in H7, H8, H9 |- *. set (s0 := consume s (va_digest v)) in *.
  assert (Hg : good_collector s0) by apply Hw.
  assert (HI' : current_index (issued s1 r (tk_amount t)) = current_index s1) by apply frame_issued.
  assert (HJ : 0 < current_index s1) by (rewrite <- HI', H9, Hmax; lia).
  split.
  - rewrite tp_issued' by done. rewrite (tried_total _ _ _ _ H5 Hg), HI'. done.
  - intros Hle. destruct H5 as [[_ ->]|[Hgt _]]; [|change (current_index s0) with (current_index s) in Hgt; lia].
    destruct (frame_issued s0 r (tk_amount t)) as (F1 & F2 & F3 & F4 & F5 & F6 & F7 & F8 & F9).
    split. { intros a. rewrite bal_issued by done. by rewrite on_ind. }
    split. { intros a. rewrite prin_issued by done. change (prin s0 a) with (prin s a). case_decide; [done|]. rewrite on_ind.
      change (current_index s0) with (current_index s). by rewrite down_floor by (lia || done). }
    split; [by rewrite supply_issued|]. split; [done|]. split; [done|]. split; [done|]. split; [done|]. split; [done|].
    split; [done|]. split; [done|]. split; [done|]. exists v. done.
Qed.

Theorem redeem_books c s s' ps g chain tok rc amount : chain_ok c -> reachable c s ->
  exec c (OpTransfer ps g chain tok rc amount) s = Ok s' tt ->
  exists b x, c_dec c g = Some (AUser b) /\ amount = Some x /\ 0 <= x /\
    let q := ceil_div (x * unit_index) (current_index s) in
    (forall a, bal s' a = bal s a - on a (AUser b) x) /\
    (forall a, prin s' a = prin s a - on a (AUser b) q) /\
    total_principal s' = total_principal s - q /\ supply s' = supply s - x /\ current_index s' = current_index s /\
    ds_yield (d_stats (st_dollar s')) = ds_yield (d_stats (st_dollar s)) /\
    d_ext_yield (st_dollar s') = d_ext_yield (st_dollar s) /\ d_retry (st_dollar s') = d_retry (st_dollar s) /\
    d_paused (st_dollar s') = d_paused (st_dollar s) /\ d_recipients (st_dollar s') = d_recipients (st_dollar s) /\
    portal_settings s' = portal_settings s /\ st_vaults s' = st_vaults s /\
    exists msg, st_world s' = st_world s <| x_posted := x_posted (st_world s) ++ [(msg, p_nonce (st_portal s))] |>.
Proof.
  intros Hc Hr E. pose proof (reach_w _ _ Hc Hr) as Hw. pose proof (wf_index _ _ Hw) as Hidx.
  destruct (transfer_inv' _ _ _ _ _ _ _ _ _ (wf_module _ _ Hw) E)
    as (b & x & pr & sender & id & D1 & -> & Hx & -> & D3 & D4 & D5 & D6 & D7 & D8 & D9 & ->).
  exists b, x. split; [done|]. split; [done|]. split; [lia|]. cbv zeta.
  destruct (frame_burned (bump_nonce s) (AUser b) x) as (F1 & F2 & F3 & F4 & F5 & F6 & F7 & F8 & F9).
  split. { intros a. change (bal (post ?a ?b)) with (bal a). rewrite bal_burned by (lia || done). by rewrite on_ind. }
  split. { intros a. change (prin (post ?a ?b)) with (prin a). rewrite UserP.prin_burned; [|split; done|lia|exact (proj1 Hidx)].
    rewrite on_ind. change (current_index (bump_nonce s)) with (current_index s). by rewrite up_ceil by lia. }
  split. { change (total_principal (post ?a ?b)) with (total_principal a). rewrite tp_burned'; [done|lia|split; done|exact (proj1 Hidx)]. }
  split. { change (supply (post ?a ?b)) with (supply a). by rewrite supply_burned by lia. }
  split; [exact F1|]. split; [exact F2|]. split; [exact F3|]. split; [exact F4|]. split; [exact F5|]. split; [exact F6|].
  split. { unfold portal_settings. change (st_portal (post ?a ?b)) with (st_portal a). by rewrite F7. }
  split; [exact F8|]. eexists. unfold post. cbn. by rewrite F9.
Qed.

(** * IBC and hyperlane *)
Definition escrow (ch : string) : addr := AEscrow transfer_port ch.
Lemma escrow_ok ch : ordinary_account (escrow ch).
Proof. done. Qed.

Theorem ibc_send_exact c s s' o from ch rc x : chain_ok c -> reachable c s ->
  exec c (OpIbcSend o from ch rc x) s = Ok s' tt ->
  external from = true /\ 0 < x <= bal s from /\ is_Some (d_recipients (st_dollar s) !! (IBC, ch)) /\
  exists m, transferred s m from (AEscrow transfer_port ch) x /\
    only_world m s' (st_world s <| x_inflight := x_inflight (st_world s) ++
      [mk_packet transfer_port ch (Some (mk_ft (c_denom c) (Some x) (c_enc c from) rc))] |>).
Proof.
  intros Hc Hr E. pose proof (reach_w _ _ Hc Hr) as Hw.
  destruct (op_ibc_send_inv _ _ _ _ _ _ _ _ E) as (H1 & H2 & H3 & ->).
  split; [done|]. split; [done|]. split; [by apply bool_decide_eq_true in H3|].
  eexists. split; [apply send_transferred; [by apply external_ordinary|done|lia|apply Hw]|]. done.
Qed.

Theorem ibc_recv_exact c s s' ch rc x : chain_ok c -> reachable c s -> exec c (OpIbcRecv ch rc x) s = Ok s' tt ->
  exists a, c_dec c rc = Some a /\ c_blocked c a = false /\
    (x = 0 /\ s' = s \/ 0 < x <= bal s (AEscrow transfer_port ch) /\ transferred s s' (AEscrow transfer_port ch) a x).
Proof.
  intros Hc Hr E. pose proof (reach_w _ _ Hc Hr) as Hw.
  destruct (op_ibc_recv_inv _ _ _ _ _ _ (ok_blocked _ Hc) E) as (a & H1 & H2 & [[-> ->]|(H3 & H4 & H5 & ->)]); exists a; split; auto; split; auto.
  right. split; [done|]. apply send_transferred; [done|done|lia|apply Hw].
Qed.

Theorem ibc_refund_exact c s s' n o : chain_ok c -> reachable c s -> o = OpIbcTimeout n \/ o = OpIbcAck n AckError ->
  exec c o s = Ok s' tt ->
  exists p, x_inflight (st_world s) !! n = Some p /\
  let w := st_world s <| x_inflight := delete n (x_inflight (st_world s)) |> in
  (is_usdn c p = false /\ only_world s s' w \/
   exists a z rc ch, p = mk_packet transfer_port ch (Some (mk_ft (c_denom c) (Some z) (c_enc c a) rc)) /\
     0 < z <= bal s (AEscrow transfer_port ch) /\
     exists m, transferred s m (AEscrow transfer_port ch) a z /\
       s' = mk_state (st_bank m)
         (st_dollar m <| d_retry := if decide (a = AEscrow transfer_port ch)
            then <[(IBC, ch) := retry_of s IBC ch + z]> (d_retry (st_dollar s)) else d_retry (st_dollar s) |>)
         (st_portal m) (st_vaults m) w).
Proof.
  intros Hc Hr Ho E. pose proof (reach_w _ _ Hc Hr) as Hw. pose proof (ok_codec _ Hc) as Hk.
  assert (exists p, x_inflight (st_world s) !! n = Some p /\ failed_packet c (take_inflight s n) p s') as (p & Hp & Hf).
  { destruct Ho as [-> | ->].
    - by apply op_ibc_timeout_inv in E; [|done|apply Hw].
    - apply op_ibc_ack_inv in E as (p & Hp & [[? ?]|[_ Hf]]); [done|by exists p|done|apply Hw]. }
  exists p. split; [done|]. cbv zeta. unfold failed_packet in Hf. destruct (is_usdn c p) eqn:Eu; [right|left; split; [done|]; subst; done].
  destruct Hf as (a & z & rc & Hpk & Hz & Ha & ->). exists a, z, rc, (pk_chan p). split; [exact Hpk|].
  split; [exact Hz|].
  assert (Ho' : ordinary_account a).
  { destruct Ha as [Ha | ->]; [by apply external_ordinary|done]. }
  eexists. split; [apply (send_transferred s (AEscrow transfer_port (pk_chan p)) a z); [done|done|lia|apply Hw]|].
  assert (is_yield_packet c p = bool_decide (a = AEscrow transfer_port (pk_chan p))) as ->.
  { rewrite Hpk at 1. unfold is_yield_packet, ibc_packet. cbn [pk_data ft_denom ft_sender pk_port pk_chan]. rewrite bool_decide_true by done.
    cbn [andb]. apply bool_decide_ext. split; [|congruence]. intros He.
    pose proof (codec_roundtrip _ Hk a) as R1. rewrite He, (codec_roundtrip _ Hk) in R1. congruence. }
  case_decide as Hd; [rewrite bool_decide_true by done|rewrite bool_decide_false by done]; done.
Qed.

Theorem warp_send_exact c s s' o from tok domain rc x : chain_ok c -> reachable c s ->
  exec c (OpWarpSend o from tok domain rc x) s = Ok s' tt ->
  external from = true /\ 0 < x <= bal s from /\
  exists col m, x_tokens (st_world s) !! tok = Some col /\ transferred s m from WarpA x /\
    only_world m s' (st_world s <| x_tokens := <[tok := col + x]> (x_tokens (st_world s)) |>
      <| x_dispatched := x_dispatched (st_world s) ++ [mk_hypmsg from tok domain rc x] |>).
Proof.
  intros Hc Hr E. pose proof (reach_w _ _ Hc Hr) as Hw.
  destruct (op_warp_send_inv _ _ _ _ _ _ _ _ _ E) as (col & H1 & H2 & H3 & -> & ->).
  split; [done|]. split; [done|]. exists col. eexists. split; [done|].
  split; [apply send_transferred; [by apply external_ordinary|done|lia|apply Hw]|]. done.
Qed.

Theorem warp_recv_exact c s s' tok to x : chain_ok c -> reachable c s -> exec c (OpWarpRecv tok to x) s = Ok s' tt ->
  c_blocked c to = false /\
  exists col m, x_tokens (st_world s) !! tok = Some col /\ 0 < x <= col /\ x <= bal s WarpA /\ transferred s m WarpA to x /\
    only_world m s' (st_world s <| x_tokens := <[tok := col - x]> (x_tokens (st_world s)) |>).
Proof.
  intros Hc Hr E. pose proof (reach_w _ _ Hc Hr) as Hw. split.
  { revert E. cbn [exec]. destruct (x <=? 0); [done|]. unfold bind at 1, gets. destruct (x_tokens (st_world s) !! tok) as [col|]; [|done].
    destruct (col <? x); [done|]. unfold bind, modify, send_to_account. by destruct (c_blocked c to). }
  destruct (op_warp_recv_inv _ _ _ _ _ _ (ok_blocked _ Hc) E) as (col & H1 & H2 & H3 & H4 & H5 & ->).
  exists col. eexists. split; [done|]. split; [lia|]. split; [lia|].
  split; [apply (send_transferred s WarpA to x); [done|done|lia|apply Hw]|]. done.
Qed.

(** * Withdrawals from the staked vault *)
Lemma down_zero i : 0 < i -> down 0 i = 0.
Proof. intros H. unfold down. rewrite Z.mul_0_l. apply Z.quot_0_l. lia. Qed.
Lemma unls_staked g b s' : let a := AUser b in
  forall l rem s1 rem' d, in_map (v_positions (st_vaults s1)) a STAKED l -> 0 <= rem -> 0 < current_index s1 -> (forall p, p ∈ l -> 0 < pos_index p) ->
  unls g a STAKED l rem s1 rem' d s' ->
  let part p := pos_amount p - amount_at s' (a, STAKED, pos_time p) in
  (forall y, prin s' y = prin s1 y + on y a (list_sum (fun p => up (part p) (current_index s1)) l)
                                   - on y StakedA (list_sum (fun p => up (part p) (current_index s1)) l)) /\
  d = list_sum (fun p => down (part p) (pos_index p)) l /\ current_index s' = current_index s1 /\
  v_rewards (st_vaults s') = v_rewards (st_vaults s1) /\ v_stats (st_vaults s') = v_stats (st_vaults s1) /\
  total_principal s' = total_principal s1 /\ (forall p, p ∈ l -> 0 <= part p) /\ rem' = rem - list_sum part l.
Proof.
  intros a. induction l as [|p l IH]; intros rem s1 rem' d Hm Hrem Hi Hpi H part.
  { inversion H; subst. split; [intros y; change (list_sum _ []) with 0; unfold on; repeat case_decide; lia|].
    change (list_sum _ []) with 0. split; [done|]. do 4 (split; [done|]). split; [by intros p ?%elem_of_nil|]. change (list_sum part []) with 0. lia. }
  inversion H as [|?|? ? ? ? s2 ? ? d' Hne H1 H2]; subst.
  { assert (Hz : forall q, q ∈ p :: l -> part q = 0).
    { intros q Hq. unfold part, amount_at, positions. destruct (proj2 Hm q Hq) as [-> _]. lia. }
    assert (Hs : forall f : position -> Z, (forall q, q ∈ p :: l -> f q = 0) -> list_sum f (p :: l) = 0).
    { intros f. generalize (p :: l). intros l0. induction l0 as [|q l0 IH0]; intros Hf; [done|].
      change (list_sum f (q :: l0)) with (f q + list_sum f l0). rewrite Hf by (by left). rewrite IH0; [lia|]. intros q' Hq'. apply Hf. by right. }
    rewrite (Hs (fun p0 => up (part p0) (current_index s'))) by (intros q Hq; rewrite (Hz q Hq); by apply up_zero).
    rewrite (Hs (fun p0 => down (part p0) (pos_index p0))) by (intros q Hq; rewrite (Hz q Hq); apply down_zero; by apply Hpi).
    split; [intros y; unfold on; repeat case_decide; lia|]. do 5 (split; [done|]). split; [intros q Hq; rewrite (Hz q Hq); lia|]. rewrite (Hs part Hz). lia. }
  destruct (proj2 Hm p) as [Hp Hpos]; [by left|].
  pose proof (part_pos p rem Hpos Hrem Hne) as [P1 P2]. set (z := part_of p rem) in *.
  destruct (unl1_frame _ _ _ _ _ _ _ H1) as (Em & _).
  destruct (unls_frame _ _ _ _ _ _ _ _ _ H2) as (Et & _).
  assert (Hlt : forall p', p' ∈ l -> pos_time p <> pos_time p').
  { intros p' Hp' E. destruct Hm as [Hn _]. rewrite fmap_cons, NoDup_cons in Hn. apply (proj1 Hn). rewrite E. by apply elem_of_list_fmap_1. }
  assert (Hx : part p = z).
  { unfold part, amount_at. change (positions s') with (v_positions (st_vaults s')). rewrite Et, take_pos_other.
    2:{ intros p' Hp' [= E]. by apply Hlt in Hp'. }
    change (match v_positions (st_vaults s2) !! (a, STAKED, pos_time p) with Some q0 => pos_amount q0 | None => 0 end)
      with (amt_at (v_positions (st_vaults s2)) (a, STAKED, pos_time p)).
    rewrite Em, amt_at_upos by (done || lia). unfold amt_at, ind. rewrite Hp, decide_True by done. lia. }
  assert (E : upos (send_result s1 (pacct g STAKED p) a z) a STAKED p z (down z (pos_index p)) = s2) by (by inversion H1).
  apply in_map_tail with (part := z) in Hm. rewrite <- Em in Hm.
  assert (I2 : current_index s2 = current_index s1) by (by rewrite <- E).
  destruct (IH (rem - z) s2 rem' d' Hm ltac:(lia) ltac:(by rewrite I2) ltac:(intros q Hq; apply Hpi; by right) H2) as (T1 & T2 & T3 & T4 & T5 & T6 & T7 & T8). fold part in T1, T2, T7, T8.
  rewrite I2 in T1.
  change (list_sum (fun p0 => up (part p0) (current_index s1)) (p :: l)) with (up (part p) (current_index s1) + list_sum (fun p0 => up (part p0) (current_index s1)) l).
  change (list_sum (fun p0 => down (part p0) (pos_index p0)) (p :: l)) with (down (part p) (pos_index p) + list_sum (fun p0 => down (part p0) (pos_index p0)) l).
  rewrite Hx. split; [|split; [by rewrite T2|split; [congruence|split; [by rewrite T4, <- E|split; [by rewrite T5, <- E|split]]]]].
  - intros y. rewrite T1, <- E. change (prin (upos ?u ?v ?w ?x ?q ?r)) with (prin u).
    change (pacct g STAKED p) with StakedA. rewrite prin_send by done. unfold on, ind.
    repeat case_decide; try (exfalso; subst a; congruence); subst part; cbv beta; lia.
  - rewrite T6, <- E. change (total_principal (upos ?u ?v ?w ?x ?q ?r)) with (total_principal u). change (pacct g STAKED p) with StakedA. by rewrite tp_send.
  - split; [intros q [->|Hq]%elem_of_cons; [lia|by apply T7]|].
    change (list_sum part (p :: l)) with (part p + list_sum part l). lia.
Qed.

Theorem staked_payout c s s' g x b : chain_ok c -> reachable c s -> c_dec c g = Some (AUser b) ->
  exec c (OpUnlock g STAKED (Some x)) s = Ok s' tt -> let a := AUser b in
  let of_user k := bool_decide (k.1 = (a, STAKED)) in
  let part p := pos_amount p - amount_at s' (a, STAKED, pos_time p) in
  let moved := position_sum of_user (fun p => ceil_div (part p * unit_index) (current_index s)) s in
  let removed := position_sum of_user (fun p => floor_div (part p * unit_index) (pos_index p)) s in
  position_sum of_user part s = x /\
  (forall y, prin s' y = prin s y + on y a moved - on y StakedA moved) /\
  total_principal s' = total_principal s /\
  vault_total s' STAKED = vault_total s STAKED - removed /\ vault_total s' FLEXIBLE = vault_total s FLEXIBLE /\
  v_total_flex (st_vaults s') = v_total_flex (st_vaults s) /\ rewards s' = rewards s /\ distributed s' = distributed s.
Proof.
  intros Hc Hr Hd E a of_user part moved removed. destruct (winv_reachable _ _ Hc Hr) as [Hw Hp].
  destruct (unlock_inv' c g STAKED (Some x) s s' Hp E) as (b' & x' & d & s1 & Hd' & [= <-] & _ & _ & _ & _ & Hx & _ & Hu & ->).
  assert (b' = b) as -> by congruence. fold a in Hu |- *. clear Hd'.
  assert (Hi : 0 < current_index s) by apply Hw. assert (Hx0 : 0 <= x) by (clear - Hx; lia).
  pose proof (in_map_positions s a STAKED Hp) as Hm.
  assert (Hpi : forall p, p ∈ positions_of s a STAKED -> 0 < pos_index p).
  { intros p Hin. destruct (proj2 Hm p Hin) as [K _]. apply Hp in K as (_ & _ & [K _] & _). exact K. }
  destruct (unls_staked g b s1 _ _ _ _ _ Hm Hx0 Hi Hpi Hu) as (T1 & T2 & T3 & T4 & T5 & T6 & T7 & T8). fold a in T1, T2, T7, T8.
  destruct (unls_frame _ _ _ _ _ _ _ _ _ Hu) as (Et & _ & _ & _ & Ef & _).
  set (s2 := unlock_result s1 a STAKED d) in *.
  assert (PS : forall f, position_sum of_user f s = list_sum f (positions_of s a STAKED)).
  { intros f. rewrite positions_sum, position_sum_fsum. unfold psum. apply fsum_ext. intros k p _. unfold of_user. case_bool_decide; by case_decide. }
  assert (PE : part = fun p => pos_amount p - amount_at s1 (a, STAKED, pos_time p)) by done.
  assert (LE : forall f h : position -> Z, (forall p, p ∈ positions_of s a STAKED -> f p = h p) -> list_sum f (positions_of s a STAKED) = list_sum h (positions_of s a STAKED)).
  { intros f h. generalize (positions_of s a STAKED). intros l. induction l as [|p l IH]; intros H; [done|].
    change (f p + list_sum f l = h p + list_sum h l). rewrite H by (by left). f_equal. apply IH. intros q Hq. apply H. by right. }
  assert (M1 : moved = list_sum (fun p => up (part p) (current_index s)) (positions_of s a STAKED)).
  { unfold moved. rewrite PS. apply LE. intros p Hin. symmetry. apply up_ceil; [by apply T7|done]. }
  assert (M2 : removed = list_sum (fun p => down (part p) (pos_index p)) (positions_of s a STAKED)).
  { unfold removed. rewrite PS. apply LE. intros p Hin. symmetry. apply down_floor; [by apply T7|by apply Hpi]. }
  split; [|split; [|split; [exact T6|]]].
  - rewrite PS. rewrite PE. clear - T8. lia.
  - intros y. rewrite M1. apply T1.
  - rewrite M2, PE, <- T2. unfold s2, unlock_result, distributed, vault_total, with_stats, vprin_add, users_down. cbn. rewrite T4, Ef, T5.
    destruct (Nat.eqb _ 0); cbn; split_and!; try done; lia.
Qed.

(** What a deposit does to the books of the vaults. *)
Theorem lock_books c s s' g v x b : chain_ok c -> reachable c s -> c_dec c g = Some (AUser b) ->
  exec c (OpLock g v (Some x)) s = Ok s' tt -> let p := floor_div (x * unit_index) (current_index s) in
  (forall w, a_vault w -> vault_total s' w = vault_total s w + (if v =? w then p else 0)) /\
  v_total_flex (st_vaults s') = v_total_flex (st_vaults s) + (if v =? FLEXIBLE then p else 0) /\
  total_principal s' = total_principal s /\ rewards s' = rewards s /\ distributed s' = distributed s /\
  v_paused (st_vaults s') = v_paused (st_vaults s) /\ v_ended (st_vaults s') = v_ended (st_vaults s) /\
  ds_yield (d_stats (st_dollar s')) = ds_yield (d_stats (st_dollar s)).
Proof.
  intros Hc Hr Hd E p. pose proof (reach_w _ _ Hc Hr) as Hw. pose proof (wf_index _ _ Hw) as Hidx.
  destruct (lock_inv' _ _ _ _ _ _ Hc E) as (b' & x' & D & [= <-] & H1 & H2 & H3 & H4 & H5 & H6 & ->).
  assert (b' = b) as -> by congruence. clear D.
  pose proof (ok_min_lock _ Hc). assert (Hx : 0 < x) by lia.
  assert (Hp : down x (current_index s) = p) by (apply down_floor; lia).
  rewrite (posacct c g (AUser b)) by (apply Hc || done).
  set (h := vault_account c v (AUser b) (x_now (st_world s))).
  destruct (vault_account_not c v (AUser b) (x_now (st_world s))) as (N1 & N2 & N3 & N4 & N5 & _). fold h in N1, N2, N3, N4, N5.
  assert (T : total_principal (lock_result s (AUser b) h v x) = total_principal s).
  { transitivity (total_principal (send_result s (AUser b) h x)); [unfold total_principal; by rewrite lock_dollar|]. by apply tp_send. }
  assert (Y : ds_yield (d_stats (st_dollar (lock_result s (AUser b) h v x))) = ds_yield (d_stats (st_dollar s))) by (by rewrite lock_dollar).
  split; [|split; [|split; [exact T|]]].
  - rewrite <- Hp. intros w W. destruct H5 as [-> | ->], W as [-> | ->]; unfold lock_result, with_stats, vprin_add, users_up, vault_total;
      cbn; destruct (Nat.eqb _ 1); cbn; lia.
  - rewrite <- Hp. destruct H5 as [-> | ->]; cbn; lia.
  - unfold distributed, rewards. destruct H5 as [-> | ->]; unfold lock_result, with_stats, vprin_add, users_up; cbn; destruct (Nat.eqb _ 1); cbn; done.
Qed.

(** * Administration is accepted exactly when valid *)
Lemma owner_ok s g (k : M unit) s' : (bind (ensure_owner g) (fun _ => k)) s = Ok s' tt <-> is_owner s g /\ k s = Ok s' tt.
Proof.
  unfold ensure_owner, is_owner. cbv [bind gets ret fail]. destruct (bool_decide_reflect (p_owner (st_portal s) = ""%string)) as [H|H].
  - split; [done|]. intros [[-> ?] _]. done.
  - destruct (bool_decide_reflect (g = p_owner (st_portal s))) as [H'|H']; cbn [negb].
    + split; [intros ->; split; [split; congruence|done]|by intros [_ ->]].
    + split; [done|]. by intros [[? _] _].
Qed.
Lemma succeeds_iff c s o : succeeds c s o = true <-> exists s', exec c o s = Ok s' tt.
Proof. unfold succeeds. destruct (exec c o s) as [s' []|s' e|]; split; try done; [eauto|by intros [? ?]|by intros [? ?]]. Qed.
Lemma wide_iff b : negb (blen b =? 32) = false /\ bool_decide (b = empty32) = false <-> wide_address b.
Proof. unfold wide_address. change empty32 with (replicate 32 Byte.x00). rewrite negb_false_iff, Z.eqb_eq, bool_decide_eq_false. done. Qed.
Theorem admin_accepts c s g :
  (forall b, succeeds c s (OpPortalSetPaused g b) = true <-> is_owner s g) /\
  (forall chain t m, succeeds c s (OpSetPeer g chain t m) = true <->
     is_owner s g /\ chain <> 0 /\ chain <> c_chain c /\ wide_address t /\ wide_address m) /\
  (forall chain tok b, succeeds c s (OpSetBridgingPath g chain tok b) = true <-> is_owner s g /\ chain <> c_chain c /\ wide_address tok) /\
  (forall n, succeeds c s (OpTransferOwnership g n) = true <-> is_owner s g /\ is_Some (c_dec c n) /\ n <> g) /\
  (forall b, succeeds c s (OpSetPaused g b) = true <-> g = c_authority c) /\
  (forall p, succeeds c s (OpVaultsSetPaused g p) = true <-> g = c_authority c /\ 0 <= p <= 3) /\
  (forall p id r, succeeds c s (OpSetYieldRecipient g p id r) = true <-> g = c_authority c /\
     (p = IBC -> id ∈ x_channels (st_world s)) /\
     (p = HYPERLANE -> exists h d, c_hex c id = Some h /\ is_Some (x_tokens (st_world s) !! internal_id h) /\
        x_routers (st_world s) !! internal_id h = Some [d])).
Proof.
  split_and!; intros; rewrite succeeds_iff; cbn [exec].
  - unfold portal_set_paused. setoid_rewrite owner_ok. unfold modify. naive_solver.
  - unfold set_peer. setoid_rewrite owner_ok. rewrite <- !wide_iff.
    destruct (Z.eqb_spec chain 0), (Z.eqb_spec chain (c_chain c)), (negb (blen t =? 32)), (bool_decide (t = empty32)), (negb (blen m =? 32)), (bool_decide (m = empty32)); unfold modify, fail; naive_solver.
  - unfold set_bridging_path. setoid_rewrite owner_ok. rewrite <- !wide_iff.
    destruct (Z.eqb_spec chain (c_chain c)), (negb (blen tok =? 32)), (bool_decide (tok = empty32)); unfold modify, fail; naive_solver.
  - unfold transfer_ownership. setoid_rewrite owner_ok. destruct (c_dec c n) as [a|]; [|unfold fail; split; [by intros (? & _ & ?)|by intros (_ & [? ?] & _)]].
    destruct (bool_decide_reflect (n = g)); unfold modify, fail; naive_solver.
  - unfold set_paused, modify, fail. destruct (bool_decide_reflect (g = c_authority c)); cbn [negb]; naive_solver.
  - unfold vaults_set_paused, modify, fail. destruct (bool_decide_reflect (g = c_authority c)); cbn [negb]; [|naive_solver].
    destruct (Z.leb_spec 0 p), (Z.leb_spec p 3); cbn [andb negb]; split; try naive_solver lia.
  - unfold set_yield_recipient, get_router, modify, fail, gets, ret, bind. destruct (bool_decide_reflect (g = c_authority c)); cbn [negb]; [|naive_solver].
    destruct (Z.eqb_spec p IBC) as [->|Hi].
    + destruct (bool_decide_reflect (id ∈ x_channels (st_world s))); naive_solver.
    + destruct (Z.eqb_spec p HYPERLANE) as [->|Hh]; [|naive_solver].
      destruct (c_hex c id) as [h|]; [|naive_solver].
      destruct (bool_decide_reflect (is_Some (x_tokens (st_world s) !! internal_id h))); cbn [negb]; [|naive_solver].
      destruct (x_routers (st_world s) !! internal_id h) as [[|d [|]]|] eqn:R; cbn [default]; naive_solver.
Qed.

(** An authentic message of another kind is consumed and changes nothing else. *)
Theorem unknown_ignored c s x bz v pr from to id sender extra payload :
  chain_ok c -> reachable c s -> p_paused (st_portal s) = false ->
  c_vaa c bz = Some v -> va_digest v ∉ x_vaas (st_world s) -> slice_ok (va_payload v) ->
  p_peers (st_portal s) !! va_chain v = Some pr -> va_emitter v = pr_transceiver pr -> from = pr_manager pr -> to = padded_manager c ->
  sl_bytes (va_payload v) = wire from to id sender payload extra ->
  wide id -> wide sender -> blen payload <= 65000 -> blen extra < 65536 ->
  take 4 payload <> ntt_prefix -> take 4 payload <> index_prefix ->
  exec c (OpDeliver x bz) s = Ok (s <| st_world; x_vaas ::= union {[va_digest v]} |>) tt.
Proof.
  intros Hc Hr Hpa Hv Hd Hok Hpr Hem -> -> HW W3 W4 HP HX HN HI.
  destruct (proj1 (portal_well_formed _ _ Hc Hr) _ _ Hpr) as (_ & _ & _ & W1 & _).
  assert (W2 : blen (padded_manager c) = 32).
  { unfold padded_manager, blen. rewrite app_length, replicate_length. pose proof (ok_manager _ Hc). unfold blen in *. lia. }
  destruct (wire_parsed _ _ _ _ _ _ _ Hok HW W1 W2 W3 W4 HP HX) as (t & m & P1 & P2 & P3 & P4 & P5 & P6 & P7 & P8 & P9).
  pose proof (payload_type_spec (mp_payload m) P9) as Q. rewrite P8, !bool_decide_false in Q by done.
  cbn [exec]. unfold deliver, parse_and_verify_vaa. cbv [bind gets modify ret fail]. rewrite Hpa, Hv.
  rewrite bool_decide_false by done. match goal with |- context [p_peers (st_portal ?z)] => change (p_peers (st_portal z)) with (p_peers (st_portal s)) end. rewrite Hpr.
  rewrite bool_decide_true by done. cbn [negb]. cbv [lift]. rewrite P1, P2, P3. rewrite !bool_decide_true by done. cbn [negb].
  rewrite P5. cbv [handle_payload bind lift]. by rewrite Q.
Qed.
