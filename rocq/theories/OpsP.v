(** What each successful message does, apart from the vault messages. *)
From Verif Require Export EffectsP Spec.

Notation top2 := (fun _ _ => True).

Lemma wp_top {A} (m : M A) s (Q : state -> A -> Prop) :
  (forall s' a, m s = Ok s' a -> Q s' a) -> wp m s Q top2.
Proof. unfold wp. destruct (m s); auto. Qed.

(** Turn a goal about the result of a successful run into a [wp] goal. *)
Ltac inv_ok :=
  match goal with |- ?m ?s = Ok ?s' ?u -> _ =>
    let H := fresh in intros H; pattern s';
    match goal with |- ?P s' => refine (wp_ok m s (fun x _ => P x) top2 s' u _ H) end;
    cbn beta; clear H
  end.

(** ** Base invariant *)
Definition packet_ok (c : config) (p : packet) : Prop :=
  is_usdn c p = true ->
  exists a z rc, p = mk_packet transfer_port (pk_chan p) (Some (mk_ft (c_denom c) (Some z) (c_enc c a) rc)) /\
    0 < z /\ (external a = true \/ a = AEscrow transfer_port (pk_chan p)).

Record wfs (c : config) (s : state) : Prop := {
  wf_module : bal s ModuleA = 0;
  wf_coll : good_collector s;
  wf_index : 0 < current_index s < 2 ^ 63;
  wf_packets : Forall (packet_ok c) (x_inflight (st_world s))
}.

Lemma external_not_module a : external a = true -> a <> ModuleA /\ a <> YieldA /\ a <> WarpA /\ a <> StakedA /\ a <> FlexibleA.
Proof. intros H. repeat split; intros ->; discriminate. Qed.
Lemma external_not_escrow a p ch : external a = true -> a <> AEscrow p ch.
Proof. intros H ->. discriminate. Qed.

(** ** ClaimYield *)
Lemma claim_yield_inv c signer s s' :
  claim_yield c signer s = Ok s' tt ->
  exists a y, c_dec c signer = Some a /\ d_paused (st_dollar s) = false /\ c_blocked c a = false /\
    y = yield_of s a /\ (y <= bal s YieldA \/ y = 0) /\ s' = pay s a y.
Proof.
  intros H. revert H. apply (wp_ok (claim_yield c signer) s
    (fun s' _ => exists a y, c_dec c signer = Some a /\ d_paused (st_dollar s) = false /\ c_blocked c a = false /\
    y = yield_of s a /\ (y <= bal s YieldA \/ y = 0) /\ s' = pay s a y) top2).
  unfold claim_yield. apply wp_bind, wp_gets. destruct (d_paused (st_dollar s)); [done|].
  unfold get_yield. apply wp_bind. destruct (c_dec c signer) as [a|]; [|done].
  apply wp_bind, get_yield_of_spec, wp_ret. cbn [fst snd].
  apply wp_bind, new_coins_spec. intros Hn. unfold send_to_account.
  destruct (c_blocked c a) eqn:Eb; [done|]. apply send_yield_spec; [done| |done].
  intros Hb. eauto 10.
Qed.

(** ** Issuance *)
Definition issued (s : state) (to : addr) (amt : Z) : state :=
  if 0 <? amt then send_result (mint_result s amt) ModuleA to amt else s.

Definition index_applied (c : config) (i : Z) (s s' : state) : Prop :=
  current_index s < i /\ exists n, n = present (total_principal s) i - supply s /\ 0 <= n /\
  upds c i (accrued s i n n) s'.
(** The effect of an index update whose error is ignored. *)
Definition index_tried (c : config) (i : Z) (s s' : state) : Prop :=
  (i <= current_index s /\ s' = s) \/
  (current_index s < i /\ exists n d, n = present (total_principal s) i - supply s /\ 0 <= n /\
    (d = n \/ d = 0 /\ 0 < n /\ int_fits (ds_yield (d_stats (st_dollar s)) + n) = false /\ s' = accrued s i n d) /\
    upds c i (accrued s i n d) s').

Lemma update_index_inv c x i s s' :
  0 <= bal s ModuleA -> good_collector s ->
  update_index c x i s = Ok s' tt -> index_applied c i s s'.
Proof.
  intros Hb Hg. apply (wp_ok _ _ (fun s' _ => index_applied c i s s') top2).
  apply (update_index_spec c x i s _ _ _ eq_refl); auto.
  intros Hi Hn s1 H1. split; [done|]. eauto.
Qed.
Lemma update_index_tried c x i s (Q : state -> bool -> Prop) E :
  0 <= bal s ModuleA -> good_collector s ->
  (forall s' b, index_tried c i s s' -> Q s' b) ->
  wp (try (update_index c x i)) s Q E.
Proof.
  intros Hb Hg HQ. apply wp_try, (update_index_spec c x i s _ _ _ eq_refl); auto.
  - intros Hi Hn s1 H1. apply HQ. right. split; [done|]. eauto 10.
  - intros Hi. apply HQ. left. auto.
  - intros Hi Hn d s1 e Hd H1. apply HQ. right. split; [done|]. eauto 10.
Qed.

Lemma bal_mint s amt a : bal (mint_result s amt) a = bal s a + ind (a = ModuleA) amt.
Proof. exact (mget_addz (bk_bal (st_bank s)) ModuleA amt a). Qed.

Lemma issue_spec c to amt s (Q : state -> unit -> Prop) :
  0 <= bal s ModuleA -> c_blocked c ModuleA = true ->
  (0 <= amt -> c_blocked c to = false -> to <> ModuleA -> Q (issued s to amt) tt) ->
  wp (amt' <- new_coins amt;; mint_coins amt';;; send_to_account c ModuleA to amt') s Q top2.
Proof.
  intros Hb Hbl HQ. apply wp_bind, new_coins_spec. intros Ha.
  apply wp_bind, mint_coins_spec; [done|]. unfold send_to_account.
  destruct (c_blocked c to) eqn:Et; [done|].
  assert (to <> ModuleA) by congruence. specialize (HQ Ha eq_refl H). unfold issued in HQ.
  destruct (Z.ltb_spec 0 amt).
  - eapply wp_mono; [apply send_coins_cases; lia| |]; cbn beta; [|done].
    intros s1 [] (_ & _ & ->). exact HQ.
  - assert (amt = 0) as -> by lia. apply wp_ret. exact HQ.
Qed.

(** ** Delivery *)
Definition consume (s : state) (d : bytes) : state :=
  s <| st_world; x_vaas := {[d]} ∪ x_vaas (st_world s) |>.

(** The checks that a delivered VAA passed, with the payload it carried. *)
Record accepted (c : config) (s : state) (bz : bytes) (v : vaa) (pl : slice) : Prop := {
  ac_unpaused : p_paused (st_portal s) = false;
  ac_vaa : c_vaa c bz = Some v;
  ac_fresh : va_digest v ∉ x_vaas (st_world s);
  ac_parsed : exists pr t m,
    p_peers (st_portal s) !! va_chain v = Some pr /\ pr_transceiver pr = va_emitter v /\
    parse_transceiver (va_payload v) = POk t /\ pr_manager pr = sl_bytes (tp_source t) /\
    padded_manager c = sl_bytes (tp_recipient t) /\
    parse_manager (tp_manager t) = POk m /\ pl = mp_payload m
}.

Inductive handled (c : config) (pl : slice) (s : state) : state -> Prop :=
| hd_unknown : get_payload_type pl = POk PTUnknown -> handled c pl s s
| hd_index i s' : get_payload_type pl = POk PTIndex ->
    decode_index_payload pl = POk (i, c_chain c) ->
    index_applied c i s s' -> handled c pl s s'
| hd_token t s1 : get_payload_type pl = POk PTToken ->
    decode_token_payload pl = POk t -> tk_chain t = c_chain c -> sl_bytes (tk_token t) = raw_token c ->
    index_tried c (tk_index t) s s1 -> 0 <= tk_amount t ->
    c_blocked c (c_acct c (sl_bytes (tk_recipient t))) = false ->
    c_acct c (sl_bytes (tk_recipient t)) <> ModuleA ->
    handled c pl s (issued s1 (c_acct c (sl_bytes (tk_recipient t))) (tk_amount t)).

(** What an index update leaves alone after the accrual. *)
Lemma upd_frame c i s s' : upd c i s s' -> good_collector s ->
  current_index s' = current_index s /\ supply s' = supply s /\ bal s' ModuleA = bal s ModuleA /\
  (v_collector (st_vaults s') = v_collector (st_vaults s) /\ v_ended (st_vaults s') = v_ended (st_vaults s) /\
   v_paused (st_vaults s') = v_paused (st_vaults s) /\ v_positions (st_vaults s') = v_positions (st_vaults s) /\
   v_total_flex (st_vaults s') = v_total_flex (st_vaults s) /\ v_stats (st_vaults s') = v_stats (st_vaults s)) /\
  d_paused (st_dollar s') = d_paused (st_dollar s) /\ d_recipients (st_dollar s') = d_recipients (st_dollar s) /\
  ds_yield (d_stats (st_dollar s')) = ds_yield (d_stats (st_dollar s)) /\
  total_principal s' = total_principal s /\
  st_portal s' = st_portal s /\
  (x_now (st_world s') = x_now (st_world s) /\ x_vaas (st_world s') = x_vaas (st_world s) /\
   x_posted (st_world s') = x_posted (st_world s) /\ x_channels (st_world s') = x_channels (st_world s) /\
   x_acked (st_world s') = x_acked (st_world s) /\ x_routers (st_world s') = x_routers (st_world s)).
Proof.
  intros H [Hm Hy]. destruct H.
  - rewrite bal_send. unfold ind. rewrite decide_False by done. rewrite decide_False.
    2:{ intros <-. by destruct H as [|[|[|[? ?]]]]. }
    split; [done|]. split; [done|]. split; [lia|]. rewrite send_from_yield. repeat split.
  - subst s1. unfold pay. destruct (0 <? fy).
    + repeat split. change (bal (send_result s YieldA FlexibleA fy) ModuleA = bal s ModuleA).
      rewrite bal_send. unfold ind. rewrite !decide_False by done. lia.
    + repeat split.
  - subst s1. assert (bal (pay s FlexibleA fy) ModuleA = bal s ModuleA).
    { unfold pay. destruct (0 <? fy); [|done]. rewrite bal_send. unfold ind. rewrite !decide_False by done. lia. }
    split; [|split; [|split]].
    + unfold pay. by destruct (0 <? fy).
    + unfold pay. by destruct (0 <? fy).
    + change (bal (send_result (pay s FlexibleA fy) YieldA FlexibleA sy) ModuleA = bal s ModuleA).
      rewrite bal_send. unfold ind. rewrite !decide_False by done. lia.
    + unfold pay. destruct (0 <? fy); repeat split.
  - split; [done|]. split; [done|]. split.
    { rewrite !bal_send. unfold ind. rewrite !decide_False by auto. lia. }
    repeat split. rewrite tp_send by auto. done.
  - split; [done|]. split; [done|]. split.
    { rewrite !bal_send. unfold ind. case_decide; lia. }
    repeat split. unfold total_principal, send_result; cbn. unfold send_tp.
    destruct H as [->|[ch ->]]; by rewrite !decide_False by done.
  - destruct H as (E & R & F & T & D & -> & _). repeat split.
Qed.

Lemma upd_frame' c i s s' : upds c i s s' -> good_collector s ->
  good_collector s' /\
  current_index s' = current_index s /\ supply s' = supply s /\ bal s' ModuleA = bal s ModuleA /\
  (v_collector (st_vaults s') = v_collector (st_vaults s) /\ v_ended (st_vaults s') = v_ended (st_vaults s) /\
   v_paused (st_vaults s') = v_paused (st_vaults s) /\ v_positions (st_vaults s') = v_positions (st_vaults s) /\
   v_total_flex (st_vaults s') = v_total_flex (st_vaults s) /\ v_stats (st_vaults s') = v_stats (st_vaults s)) /\
  d_paused (st_dollar s') = d_paused (st_dollar s) /\ d_recipients (st_dollar s') = d_recipients (st_dollar s) /\
  ds_yield (d_stats (st_dollar s')) = ds_yield (d_stats (st_dollar s)) /\
  total_principal s' = total_principal s /\
  st_portal s' = st_portal s /\
  (x_now (st_world s') = x_now (st_world s) /\ x_vaas (st_world s') = x_vaas (st_world s) /\
   x_posted (st_world s') = x_posted (st_world s) /\ x_channels (st_world s') = x_channels (st_world s) /\
   x_acked (st_world s') = x_acked (st_world s) /\ x_routers (st_world s') = x_routers (st_world s)).
Proof.
  induction 1 as [s|s s1 s2 H1 H2 IH]; intros Hg.
  - repeat (split; [done|]). done.
  - pose proof (upd_frame _ _ _ _ H1 Hg) as F1.
    assert (Hg1 : good_collector s1).
    { unfold good_collector in *. destruct F1 as (_ & _ & _ & (-> & _) & _). done. }
    specialize (IH Hg1).
    destruct F1 as (? & ? & ? & (? & ? & ? & ? & ? & ?) & ? & ? & ? & ? & ? & (? & ? & ? & ? & ? & ?)).
    destruct IH as (? & ? & ? & ? & (? & ? & ? & ? & ? & ?) & ? & ? & ? & ? & ? & (? & ? & ? & ? & ? & ?)).
    split; [done|]. repeat split; congruence.
Qed.

Lemma bal_accrued s i n d a : 0 <= n -> bal (accrued s i n d) a = bal s a + ind (a = YieldA) n.
Proof.
  intros. unfold accrued. destruct (Z.ltb_spec 0 n).
  - transitivity (bal (send_result (mint_result (s <| st_dollar; d_index := i |>) n) ModuleA YieldA n) a); [done|].
    rewrite bal_send, bal_mint. change (bal (s <| st_dollar; d_index := i |>) a) with (bal s a).
    unfold ind. repeat case_decide; subst; try done; lia.
  - transitivity (bal s a); [done|]. unfold ind. case_decide; lia.
Qed.
Lemma supply_accrued s i n d : 0 <= n -> supply (accrued s i n d) = supply s + n.
Proof.
  intros. unfold accrued. destruct (Z.ltb_spec 0 n); [done|]. transitivity (supply s); [done|lia].
Qed.
Lemma bsum_accrued s i n d : 0 <= n -> msum (bk_bal (st_bank (accrued s i n d))) = msum (bk_bal (st_bank s)) + n.
Proof.
  intros. unfold accrued. destruct (Z.ltb_spec 0 n).
  - transitivity (msum (bk_bal (st_bank (send_result (mint_result (s <| st_dollar; d_index := i |>) n) ModuleA YieldA n)))); [done|].
    rewrite sum_send. transitivity (msum (addz ModuleA n (bk_bal (st_bank s)))); [done|]. apply msum_addz.
  - transitivity (msum (bk_bal (st_bank s))); [done|]. lia.
Qed.
Lemma frame_accrued s i n d :
  current_index (accrued s i n d) = i /\ d_principal (st_dollar (accrued s i n d)) = d_principal (st_dollar s) /\
  total_principal (accrued s i n d) = total_principal s /\
  ds_holders (d_stats (st_dollar (accrued s i n d))) = ds_holders (d_stats (st_dollar s)) /\
  ds_yield (d_stats (st_dollar (accrued s i n d))) = ds_yield (d_stats (st_dollar s)) + d /\
  d_ext_yield (st_dollar (accrued s i n d)) = d_ext_yield (st_dollar s) /\
  d_retry (st_dollar (accrued s i n d)) = d_retry (st_dollar s) /\
  d_paused (st_dollar (accrued s i n d)) = d_paused (st_dollar s) /\
  d_recipients (st_dollar (accrued s i n d)) = d_recipients (st_dollar s) /\
  st_portal (accrued s i n d) = st_portal s /\
  st_vaults (accrued s i n d) = st_vaults s /\ st_world (accrued s i n d) = st_world s.
Proof. unfold accrued. destruct (0 <? n); repeat split. Qed.

Lemma bal_issued s to amt a : 0 <= amt -> to <> ModuleA ->
  bal (issued s to amt) a = bal s a + ind (a = to) amt.
Proof.
  intros. unfold issued. destruct (Z.ltb_spec 0 amt).
  - rewrite bal_send, bal_mint. unfold ind. repeat case_decide; subst; try done; lia.
  - unfold ind. case_decide; lia.
Qed.
Lemma supply_issued s to amt : 0 <= amt -> supply (issued s to amt) = supply s + amt.
Proof. intros. unfold issued. destruct (Z.ltb_spec 0 amt); [done|lia]. Qed.
Lemma bsum_issued s to amt : 0 <= amt ->
  msum (bk_bal (st_bank (issued s to amt))) = msum (bk_bal (st_bank s)) + amt.
Proof.
  intros. unfold issued. destruct (Z.ltb_spec 0 amt); [|lia].
  rewrite sum_send. apply (msum_addz (bk_bal (st_bank s)) ModuleA amt).
Qed.
Lemma frame_issued s to amt :
  current_index (issued s to amt) = current_index s /\
  ds_yield (d_stats (st_dollar (issued s to amt))) = ds_yield (d_stats (st_dollar s)) /\
  d_ext_yield (st_dollar (issued s to amt)) = d_ext_yield (st_dollar s) /\
  d_retry (st_dollar (issued s to amt)) = d_retry (st_dollar s) /\
  d_paused (st_dollar (issued s to amt)) = d_paused (st_dollar s) /\
  d_recipients (st_dollar (issued s to amt)) = d_recipients (st_dollar s) /\
  st_portal (issued s to amt) = st_portal s /\
  st_vaults (issued s to amt) = st_vaults s /\ st_world (issued s to amt) = st_world s.
Proof. unfold issued. destruct (0 <? amt); repeat split. Qed.

Lemma index_tried_frame c i s s' : index_tried c i s s' -> good_collector s ->
  good_collector s' /\ bal s' ModuleA = bal s ModuleA /\ st_portal s' = st_portal s.
Proof.
  intros [[_ ->]|(_ & n & d & _ & Hn & _ & H)] Hg; [done|].
  assert (Hg1 : good_collector (accrued s i n d)).
  { unfold good_collector. by destruct (frame_accrued s i n d) as (_&_&_&_&_&_&_&_&_&_& -> & _). }
  apply upd_frame' in H as (? & _ & _ & Hb & _ & _ & _ & _ & _ & Hp & _); auto.
  split; [done|]. split.
  - rewrite Hb, bal_accrued by done. unfold ind. rewrite decide_False by done. lia.
  - rewrite Hp. by destruct (frame_accrued s i n d) as (_&_&_&_&_&_&_&_&_& -> & _).
Qed.

Lemma handle_inv c x pl s s' :
  0 <= bal s ModuleA -> good_collector s -> c_blocked c ModuleA = true ->
  handle_payload c x pl s = Ok s' tt -> handled c pl s s'.
Proof.
  intros Hb Hg Hbl. apply (wp_ok _ _ (fun s' _ => handled c pl s s') top2).
  unfold handle_payload. apply wp_bind, wp_lift; [|done]. intros ty Hty. destruct ty.
  - apply wp_ret. by constructor.
  - apply wp_bind, wp_lift; [|done]. intros t Ht.
    destruct (Z.eqb_spec (c_chain c) (tk_chain t)); [|done]. cbn [negb].
    bd; [|done]. cbn [negb]. unfold mint. apply wp_bind, update_index_tried; auto.
    intros s1 b H1. destruct (index_tried_frame _ _ _ _ H1 Hg) as (Hg1 & Hb1 & _).
    apply issue_spec; [lia|done|]. intros. by econstructor.
  - apply wp_bind, wp_lift; [|done]. intros [i d] Hd. cbn [fst snd].
    destruct (Z.eqb_spec (c_chain c) d); [subst d|done]. cbn [negb].
    apply wp_top. intros s1 [] H1. eapply hd_index; eauto. by eapply update_index_inv.
Qed.

Lemma deliver_inv c x bz s s' :
  0 <= bal s ModuleA -> good_collector s -> c_blocked c ModuleA = true ->
  deliver c x bz s = Ok s' tt ->
  exists v pl, accepted c s bz v pl /\ handled c pl (consume s (va_digest v)) s'.
Proof.
  intros Hb Hg Hbl. apply (wp_ok _ _ (fun s' _ => exists v pl, accepted c s bz v pl /\ handled c pl (consume s (va_digest v)) s') top2).
  unfold deliver. apply wp_bind, wp_gets. destruct (p_paused (st_portal s)) eqn:Ep; [done|].
  unfold parse_and_verify_vaa. apply wp_bind. destruct (c_vaa c bz) as [v|] eqn:Ev; [|done].
  apply wp_bind, wp_gets. bd; [done|]. apply wp_bind, wp_modify, wp_ret.
  apply wp_bind, wp_gets. cbn [st_portal].
  change (p_peers (st_portal (consume s (va_digest v)))) with (p_peers (st_portal s)).
  match goal with |- context [p_peers ?x !! _] => change (p_peers x) with (p_peers (st_portal s)) end.
  destruct (p_peers (st_portal s) !! va_chain v) as [pr|] eqn:Epr; [|done].
  bd; [|done]. cbn [negb]. apply wp_bind, wp_lift; [|done]. intros t Ht.
  bd; [|done]. cbn [negb]. bd; [|done]. cbn [negb]. apply wp_bind, wp_lift; [|done]. intros m Hm.
  apply wp_top. intros s1 [] H1. exists v, (mp_payload m). split.
  - constructor; eauto 10.
  - eapply (handle_inv c x); [..|exact H1]; done.
Qed.

(** ** Transfer *)
Definition burned (s : state) (from : addr) (amt : Z) : state :=
  if 0 <? amt then burn_result (send_result s from ModuleA amt) amt else s.
Lemma burn_spec from amt s (Q : state -> unit -> Prop) :
  0 <= bal s ModuleA -> from <> ModuleA ->
  (0 <= amt -> amt <= bal s from \/ amt = 0 -> Q (burned s from amt) tt) ->
  wp (burn from amt) s Q top2.
Proof.
  intros Hb Hf HQ. unfold burn. apply wp_bind, new_coins_spec. intros Ha.
  specialize (HQ Ha). unfold burned in HQ. apply wp_bind. destruct (Z.ltb_spec 0 amt).
  - eapply wp_mono; [apply send_coins_cases; lia| |]; cbn beta; [|done].
    intros s1 [] (Hle & _ & ->). apply burn_coins_spec; auto.
  - assert (amt = 0) as -> by lia. apply wp_ret, wp_ret. auto.
Qed.

Definition bump_nonce (s : state) : state :=
  s <| st_portal; p_nonce := wrap_u32 (p_nonce (st_portal s) + 1) |>.
Definition post (s : state) (m : bytes * Z) : state :=
  s <| st_world; x_posted := x_posted (st_world s) ++ [m] |>.

Lemma transfer_inv c ps signer chain tok rc amount s s' a :
  0 <= bal s ModuleA -> c_dec c signer = Some a -> a <> ModuleA ->
  transfer c ps signer chain tok rc amount s = Ok s' tt ->
  exists amt pr sender id,
    amount = Some amt /\ 0 <= amt < 2 ^ 63 /\ ps = true /\
    p_paused (st_portal s) = false /\
    p_peers (st_portal s) !! chain = Some pr /\
    is_Some (p_paths (st_portal s) !! (chain, tok)) /\
    blen rc = 32 /\
    pad32 (c_raw c a) = POk sender /\ pad32 (be_encode 4 (p_nonce (st_portal s))) = POk id /\
    (amt <= bal s a \/ amt = 0) /\
    s' = post (burned (bump_nonce s) a amt)
      (encode_transceiver (mk_tm (padded_manager c) (pr_manager pr)
        (encode_manager (mk_mm id sender
          (encode_ntt (mk_ntt amt (raw_token c) rc chain (encode_additional (current_index s) tok))))) []),
       p_nonce (st_portal s)).
Proof.
  intros Hb Hd Ha. inv_ok. unfold transfer.
  apply wp_bind, wp_gets. destruct (p_paused (st_portal s)) eqn:Ep; [done|].
  apply wp_bind, wp_gets. destruct (p_peers (st_portal s) !! chain) as [pr|] eqn:Epr; [|done].
  apply wp_bind, wp_gets. bd; [|done]. cbn [negb].
  destruct (Z.eqb_spec (blen rc) 32); [|done]. cbn [negb].
  unfold get_index. apply wp_bind, wp_gets. destruct amount as [amt|]; [|done].
  apply wp_bind, wp_lift; [|done]. intros raw Hraw. rewrite Hd.
  unfold int_uint64 in Hraw. destruct ((0 <=? amt) && (amt <? 2 ^ 64)) eqn:Er; [|done].
  injection Hraw as <-. apply andb_true_iff in Er as [Hr0 Hr1]. apply Z.leb_le in Hr0. apply Z.ltb_lt in Hr1.
  apply wp_bind, wp_lift; [|done]. intros sender Hs.
  unfold increment_nonce. apply wp_bind, wp_bind, wp_gets, wp_bind, wp_modify, wp_ret.
  apply wp_bind, wp_lift; [|done]. intros id Hid.
  apply wp_bind, burn_spec; [done|done|]. intros _ Hle.
  destruct ps; [|done]. cbn [negb]. apply wp_bind, wp_modify, wp_bind, wp_lift; [|done].
  intros z Hz. apply wp_ret. unfold int_int64 in Hz.
  destruct ((- 2 ^ 63 <=? amt) && (amt <? 2 ^ 63)) eqn:Ez; [|done].
  apply andb_true_iff in Ez as [_ Hz1]. apply Z.ltb_lt in Hz1.
  exists amt, pr, sender, id. repeat (split; [done|]). done.
Qed.

Lemma bal_burned s from amt a : 0 <= amt -> from <> ModuleA ->
  bal (burned s from amt) a = bal s a - ind (a = from) amt.
Proof.
  intros. unfold burned. destruct (Z.ltb_spec 0 amt).
  - transitivity (mget (addz ModuleA (- amt) (bk_bal (st_bank (send_result s from ModuleA amt)))) a); [done|].
    rewrite mget_addz, <- bal_mget, bal_send. unfold ind. repeat case_decide; subst; try done; lia.
  - unfold ind. case_decide; lia.
Qed.
Lemma supply_burned s from amt : 0 <= amt -> supply (burned s from amt) = supply s - amt.
Proof. intros. unfold burned. destruct (Z.ltb_spec 0 amt); [done|lia]. Qed.
Lemma bsum_burned s from amt : 0 <= amt ->
  msum (bk_bal (st_bank (burned s from amt))) = msum (bk_bal (st_bank s)) - amt.
Proof.
  intros. unfold burned. destruct (Z.ltb_spec 0 amt); [|lia].
  transitivity (msum (addz ModuleA (- amt) (bk_bal (st_bank (send_result s from ModuleA amt))))); [done|].
  rewrite msum_addz, sum_send. lia.
Qed.
Lemma frame_burned s from amt :
  current_index (burned s from amt) = current_index s /\
  ds_yield (d_stats (st_dollar (burned s from amt))) = ds_yield (d_stats (st_dollar s)) /\
  d_ext_yield (st_dollar (burned s from amt)) = d_ext_yield (st_dollar s) /\
  d_retry (st_dollar (burned s from amt)) = d_retry (st_dollar s) /\
  d_paused (st_dollar (burned s from amt)) = d_paused (st_dollar s) /\
  d_recipients (st_dollar (burned s from amt)) = d_recipients (st_dollar s) /\
  st_portal (burned s from amt) = st_portal s /\
  st_vaults (burned s from amt) = st_vaults s /\ st_world (burned s from amt) = st_world s.
Proof. unfold burned. destruct (0 <? amt); repeat split. Qed.

(** ** Bank, IBC and hyperlane *)
Lemma send_any_spec f t amt s (Q : state -> unit -> Prop) :
  0 <= amt -> f <> ModuleA -> f <> YieldA ->
  (amt <= bal s f \/ amt = 0 -> 0 < amt -> t <> YieldA -> Q (send_result s f t amt) tt) ->
  (amt = 0 -> Q s tt) ->
  wp (send_coins f t amt) s Q top2.
Proof.
  intros Ha Hf Hy HQ HQ0. destruct (decide (amt = 0)) as [->|Hne].
  - apply wp_ret. auto.
  - eapply wp_mono; [apply send_coins_cases; lia| |]; cbn beta; [|done].
    intros s1 [] (Hle & Hal & ->). apply HQ; [auto|lia|].
    unfold send_allowed in Hal. naive_solver.
Qed.

Lemma op_send_inv c from to amt s s' : c_blocked c ModuleA = true ->
  exec c (OpSend from to amt) s = Ok s' tt ->
  external from = true /\ 0 < amt <= bal s from /\ to <> ModuleA /\ to <> YieldA /\
  s' = send_result s from to amt.
Proof.
  intros Hbl. inv_ok. cbn [exec]. destruct (external from) eqn:Ee; [|done]. cbn [negb].
  destruct (c_blocked c to && negb (external to)) eqn:Eb; [done|].
  destruct (Z.leb_spec amt 0); [done|].
  destruct (external_not_module _ Ee) as (? & ? & _).
  apply send_any_spec; [lia|done|done| |lia].
  intros. split; [done|]. split; [lia|]. split; [|done].
  intros ->. by rewrite Hbl in Eb.
Qed.

(** ** Several outputs *)
(** [s] with [k] more on the balance of [f]. *)
Definition lifted (s : state) (f : addr) (k : Z) : state :=
  s <| st_bank; bk_bal := addz f k (bk_bal (st_bank s)) |>.
Definition total_of (outs : list (addr * Z)) : Z := foldr (fun ta acc => ta.2 + acc) 0 outs.

(** Restriction and credit are a transfer from an account that still had the coins. *)
Lemma output_ok f t a s s' : 0 < a -> is_Some (bk_bal (st_bank s) !! f) -> 0 <= bal s f ->
  (send_restriction f t a;;; add_coins t a;;; modify (fun s => s <| st_bank; bk_sends ::= Z.succ |>)) s = Ok s' tt ->
  send_allowed f t /\ s' = send_result (lifted s f a) f t a.
Proof.
  intros Ha Hd Hb H.
  assert (E : send_coins f t a (lifted s f a) = Ok s' tt).
  { unfold send_coins. rewrite (proj2 (Z.eqb_neq a 0)) by lia. unfold sub_coins, gets, bind at 1 2.
    assert (Hl : bal (lifted s f a) f = bal s f + a).
    { rewrite !bal_mget. cbn. rewrite mget_addz, decide_True by done. done. }
    rewrite Hl. rewrite (proj2 (Z.ltb_ge (bal s f + a) a)) by lia.
    unfold set_bal, modify at 1.
    match goal with |- ?m ?x = _ => replace x with s end; [exact H|].
    unfold lifted, addz. destruct s as [[B su n] d p v w]. unfold set. cbn. f_equal. f_equal.
    rewrite insert_insert, insert_id; [done|]. destruct Hd as [z Hz]. cbn in Hz. unfold bal. cbn. rewrite Hz. cbn. f_equal. lia. }
  destruct (wp_ok _ _ _ _ _ _ (send_coins_cases f t a _ ltac:(lia)) E) as (_ & H1 & H2). auto.
Qed.

Inductive multi (f : addr) : list (addr * Z) -> state -> state -> Prop :=
| mu_nil s : multi f [] s s
| mu_cons t a l s s' : 0 < a -> t <> ModuleA -> t <> YieldA ->
    multi f l (send_result (lifted s f a) f t a) s' -> multi f ((t, a) :: l) s s'.

Lemma outputs_ok f l s s' : f <> ModuleA -> f <> YieldA -> Forall (fun ta : addr * Z => 0 < ta.2 /\ ta.1 <> ModuleA) l ->
  is_Some (bk_bal (st_bank s) !! f) -> 0 <= bal s f ->
  for_each (fun ta : addr * Z => send_restriction f ta.1 ta.2;;; add_coins ta.1 ta.2;;;
    modify (fun s => s <| st_bank; bk_sends ::= Z.succ |>)) l s = Ok s' tt ->
  multi f l s s'.
Proof.
  intros Hm Hy. revert s. induction l as [|[t a] l IH]; intros s HF Hd Hb H; cbn [for_each] in H.
  { injection H as <-. constructor. }
  apply Forall_cons in HF as [[Ha Ht] HF]. cbn [fst snd] in *.
  unfold bind at 1 in H.
  destruct ((send_restriction f t a;;; add_coins t a;;; modify (fun s => s <| st_bank; bk_sends ::= Z.succ |>)) s) as [s1 []|?|] eqn:E; try discriminate.
  apply output_ok in E as [Hal ->]; auto.
  constructor; auto.
  - unfold send_allowed in Hal. naive_solver.
  - apply IH; auto.
    + cbn. unfold addz at 1. destruct (decide (f = t)) as [->|]; [rewrite lookup_insert; eauto|]. rewrite lookup_insert_ne by done.
      unfold addz at 1. rewrite lookup_insert. eauto.
    + rewrite bal_send. unfold ind. rewrite (decide_True (P := f = f)) by done. rewrite !bal_mget. cbn. rewrite mget_addz, decide_True by done.
      rewrite bal_mget in Hb. case_decide; lia.
Qed.

Lemma op_multi_inv c from outs s s' : c_blocked c ModuleA = true ->
  exec c (OpMultiSend from outs) s = Ok s' tt ->
  external from = true /\ outs <> [] /\ Forall (fun ta : addr * Z => 0 < ta.2) outs /\ 0 < total_of outs <= bal s from /\
  multi from outs (lifted s from (- total_of outs)) s'.
Proof.
  intros Hbl H. cbn [exec] in H. destruct (external from) eqn:Ee; [|discriminate]. cbn [negb] in H.
  destruct (external_not_module _ Ee) as (? & ? & _).
  destruct (bool_decide_reflect (outs = [])) as [|Hne]; [discriminate|].
  destruct (existsb (fun ta : addr * Z => ta.2 <=? 0) outs) eqn:E1; [discriminate|].
  destruct (existsb (fun ta : addr * Z => c_blocked c ta.1 && negb (external ta.1)) outs) eqn:E2; [discriminate|].
  assert (F : Forall (fun ta : addr * Z => 0 < ta.2 /\ ta.1 <> ModuleA) outs).
  { clear - E1 E2 Hbl. induction outs as [|ta l IH]; [constructor|]. cbn [existsb] in *.
    apply orb_false_iff in E1 as [E1 E1'], E2 as [E2 E2']. constructor; [|auto]. split; [lia|]. intros E. rewrite E, Hbl in E2. done. }
  assert (F1 : Forall (fun ta : addr * Z => 0 < ta.2) outs) by (eapply Forall_impl; [exact F|]; by intros ? []).
  assert (Hp : 0 < total_of outs).
  { destruct outs as [|ta l]; [done|]. clear - F1. apply Forall_cons in F1 as [H F]. cbn.
    enough (0 <= total_of l) by (unfold total_of in *; lia). induction F as [|tb l' Hb F IH]; [done|]. cbn. unfold total_of in IH. lia. }
  unfold multi_send in H. unfold bind at 1 in H. unfold sub_coins, gets, bind at 1 in H.
  change (foldr _ 0 outs) with (total_of outs) in H.
  destruct (Z.ltb_spec (bal s from) (total_of outs)); [discriminate|]. unfold set_bal, modify at 1 in H.
  split; [done|]. split; [done|]. split; [done|]. split; [lia|].
  apply outputs_ok; auto.
  - cbn. unfold addz. rewrite lookup_insert. eauto.
  - rewrite bal_mget. cbn. rewrite mget_addz, decide_True by done. rewrite bal_mget in *. lia.
Qed.

Lemma multi_targets f l s s' t a : multi f l s s' -> (t, a) ∈ l -> t <> ModuleA /\ t <> YieldA.
Proof. induction 1 as [|t' a' l s s' ? ? ? ? IH]; [by intros ?%elem_of_nil|]. intros [[= -> ->]|?]%elem_of_cons; auto. Qed.
Lemma multi_frame f l s s' : multi f l s s' ->
  st_portal s' = st_portal s /\ st_vaults s' = st_vaults s /\ st_world s' = st_world s /\
  (d_paused (st_dollar s'), d_index (st_dollar s'), d_ext_yield (st_dollar s'), d_recipients (st_dollar s'), d_retry (st_dollar s')) =
  (d_paused (st_dollar s), d_index (st_dollar s), d_ext_yield (st_dollar s), d_recipients (st_dollar s), d_retry (st_dollar s)) /\
  ds_yield (d_stats (st_dollar s')) = ds_yield (d_stats (st_dollar s)).
Proof. induction 1 as [|t a l s s' ? ? ? ? IH]; [done|]. exact IH. Qed.

Definition ibc_packet (c : config) (chan rc : string) (from : addr) (amt : Z) : packet :=
  mk_packet transfer_port chan (Some (mk_ft (c_denom c) (Some amt) (c_enc c from) rc)).

Lemma op_ibc_send_inv c o from chan rc amt s s' :
  exec c (OpIbcSend o from chan rc amt) s = Ok s' tt ->
  external from = true /\ 0 < amt <= bal s from /\ has_recipient s IBC chan = true /\
  s' = push (send_result s from (AEscrow transfer_port chan) amt) (ibc_packet c chan rc from amt).
Proof.
  inv_ok. cbn [exec]. destruct (external from) eqn:Ee; [|done]. cbn [negb].
  destruct (Z.leb_spec amt 0); [done|].
  destruct (external_not_module _ Ee) as (? & ? & _).
  apply ibc_transfer_spec; auto.
Qed.

Lemma op_ibc_send_other_inv c ok p s s' :
  exec c (OpIbcSendOther ok p) s = Ok s' tt ->
  is_usdn c p = false /\ ok = true /\ s' = push s p.
Proof.
  inv_ok. cbn [exec]. destruct (is_usdn c p) eqn:Eu; [done|].
  unfold ics4_send_packet. apply wp_bind, wp_gets. unfold is_usdn in Eu.
  replace (match pk_data p with
     | Some d => bool_decide (ft_denom d = c_denom c) && negb (has_recipient s IBC (pk_chan p))
     | None => false end) with false; [|by destruct (pk_data p); [rewrite Eu|]].
  destruct ok; [|done]. cbn [negb]. apply wp_modify. done.
Qed.

Lemma op_ibc_recv_inv c chan rc amt s s' : c_blocked c ModuleA = true ->
  exec c (OpIbcRecv chan rc amt) s = Ok s' tt ->
  exists a, c_dec c rc = Some a /\ c_blocked c a = false /\
  ((amt = 0 /\ s' = s) \/
   (0 < amt <= bal s (AEscrow transfer_port chan) /\ a <> ModuleA /\ a <> YieldA /\
    s' = send_result s (AEscrow transfer_port chan) a amt)).
Proof.
  intros Hbl. inv_ok. cbn [exec]. unfold on_recv. destruct (c_dec c rc) as [a|] eqn:Ed; [|done].
  destruct (c_blocked c a) eqn:Eb; [done|]. apply wp_bind, new_coins_spec. intros Ha.
  apply send_any_spec; [done..| |].
  - intros. exists a. split; [done|]. split; [done|]. right. split; [lia|]. split; [congruence|]. done.
  - intros ->. eauto 10.
Qed.

Definition take_inflight (s : state) (n : nat) : state :=
  s <| st_world; x_inflight := delete n (x_inflight (st_world s)) |>.
Definition ack_ok (s : state) (p : packet) : state :=
  s <| st_world; x_acked := x_acked (st_world s) ++ [p] |>.
(** State after a packet failed: retry amount, refund. *)
Definition is_yield_packet (c : config) (p : packet) : bool :=
  match pk_data p with
  | Some d => bool_decide (ft_denom d = c_denom c) &&
              bool_decide (ft_sender d = c_enc c (AEscrow (pk_port p) (pk_chan p)))
  | None => false
  end.
Definition failed_packet (c : config) (s : state) (p : packet) : state -> Prop := fun s' =>
  if is_usdn c p then
    exists a z rc, p = ibc_packet c (pk_chan p) rc a z /\ 0 < z <= bal s (AEscrow transfer_port (pk_chan p)) /\
      (external a = true \/ a = AEscrow transfer_port (pk_chan p)) /\
      s' = send_result (if is_yield_packet c p then add_retry s (IBC, pk_chan p) z else s)
             (AEscrow transfer_port (pk_chan p)) a z
  else s' = s.

Lemma not_usdn_not_yield c p : is_usdn c p = false -> is_yield_packet c p = false.
Proof. unfold is_usdn, is_yield_packet. destruct (pk_data p); [|done]. by intros ->. Qed.

Lemma fail_spec c p s (Q : state -> unit -> Prop) :
  codec_ok c -> packet_ok c p ->
  (forall s', failed_packet c s p s' -> Q s' tt) ->
  wp (add_amount_to_retry c p;;; refund c p) s Q top2.
Proof.
  intros Hc Hp HQ. destruct (is_usdn c p) eqn:Eu.
  - destruct (Hp Eu) as (a & z & rc & Hpe & Hz & Ha). unfold failed_packet in HQ. rewrite Eu in HQ.
    set (chan := pk_chan p) in *. clearbody chan. subst p.
    assert (Hn : a <> ModuleA /\ a <> YieldA).
    { destruct Ha as [Ha| ->]; [|done]. split; apply external_not_module; auto. }
    assert (Hr : forall s1, bal s1 (AEscrow transfer_port chan) = bal s (AEscrow transfer_port chan) ->
      s1 = (if is_yield_packet c (ibc_packet c chan rc a z) then add_retry s (IBC, chan) z else s) ->
      wp (refund c (ibc_packet c chan rc a z)) s1 Q top2).
    { intros s1 Hs1 ->. unfold refund. cbn [ibc_packet pk_data ft_amount ft_sender ft_denom pk_port pk_chan].
      rewrite (codec_roundtrip c Hc). rewrite bool_decide_true by done.
      apply wp_bind, new_coins_spec. intros _. apply send_any_spec; [lia|done|done| |lia].
      intros Hle _ _. apply HQ. exists a, z, rc. split; [done|]. split; [lia|]. split; [done|]. done. }
    apply wp_bind. unfold add_amount_to_retry. cbn [pk_data ft_denom ft_sender ft_amount pk_port pk_chan].
    rewrite bool_decide_true by done. cbn [negb].
    unfold is_yield_packet in Hr. cbn [ibc_packet pk_data ft_denom ft_sender ft_amount pk_port pk_chan] in Hr.
    rewrite (bool_decide_true (c_denom c = c_denom c)) in Hr by done. cbn [andb] in Hr.
    destruct (bool_decide (c_enc c a = c_enc c (AEscrow transfer_port chan))); cbn [negb].
    + apply increment_retry_spec. apply Hr; done.
    + apply wp_ret. apply Hr; done.
  - assert (add_amount_to_retry c p s = Ok s tt) as E.
    { unfold add_amount_to_retry. unfold is_usdn in Eu. destruct (pk_data p); [|done]. by rewrite Eu. }
    unfold wp, bind. rewrite E. change (wp (refund c p) s Q top2).
    unfold refund. unfold is_usdn in Eu. destruct (pk_data p) as [d|] eqn:Ed; [|done].
    destruct (ft_amount d); [|done]. destruct (c_dec c (ft_sender d)); [|done]. rewrite Eu.
    apply wp_ret, HQ. unfold failed_packet, is_usdn. by rewrite Ed, Eu.
Qed.

Lemma op_ibc_ack_inv c n a s s' : codec_ok c -> Forall (packet_ok c) (x_inflight (st_world s)) ->
  exec c (OpIbcAck n a) s = Ok s' tt ->
  exists p, x_inflight (st_world s) !! n = Some p /\
    ((a = AckResult /\ s' = ack_ok (take_inflight s n) p) \/
     (a = AckError /\ failed_packet c (take_inflight s n) p s')).
Proof.
  intros Hc Hp. inv_ok. cbn [exec]. unfold take_packet. apply wp_bind, wp_bind, wp_gets.
  destruct (x_inflight (st_world s) !! n) as [p|] eqn:En; [|done].
  apply wp_bind, wp_modify, wp_ret. unfold on_ack. destruct a.
  - apply wp_bind, wp_ret, wp_modify. eauto.
  - apply wp_bind. eapply Forall_lookup_1 in Hp; [|done]. apply fail_spec; auto.
    intros s1 H1. apply wp_ret. exists p. eauto.
  - done.
Qed.
Lemma op_ibc_timeout_inv c n s s' : codec_ok c -> Forall (packet_ok c) (x_inflight (st_world s)) ->
  exec c (OpIbcTimeout n) s = Ok s' tt ->
  exists p, x_inflight (st_world s) !! n = Some p /\ failed_packet c (take_inflight s n) p s'.
Proof.
  intros Hc Hp. inv_ok. cbn [exec]. unfold take_packet. apply wp_bind, wp_bind, wp_gets.
  destruct (x_inflight (st_world s) !! n) as [p|] eqn:En; [|done].
  apply wp_bind, wp_modify, wp_ret. unfold on_timeout. 
  eapply Forall_lookup_1 in Hp; [|done]. apply fail_spec; auto.
  intros s1 H1. exists p. eauto.
Qed.

Lemma op_warp_send_inv c o from tok domain rc amt s s' :
  exec c (OpWarpSend o from tok domain rc amt) s = Ok s' tt ->
  exists col, x_tokens (st_world s) !! tok = Some col /\ external from = true /\ 0 < amt <= bal s from /\ o = XOk /\
    s' = dispatch (set_token (send_result s from WarpA amt) tok (col + amt)) (mk_hypmsg from tok domain rc amt).
Proof.
  inv_ok. cbn [exec]. destruct (external from) eqn:Ee; [|done]. cbn [negb].
  destruct (Z.leb_spec amt 0); [done|].
  destruct (external_not_module _ Ee) as (? & ? & _).
  apply wp_bind, wp_gets. destruct (x_tokens (st_world s) !! tok) as [col|] eqn:Et; [|done].
  apply warp_transfer_spec; auto. intros. exists col. repeat (split; [done|]). done.
Qed.
Lemma op_warp_recv_inv c tok to amt s s' : c_blocked c ModuleA = true ->
  exec c (OpWarpRecv tok to amt) s = Ok s' tt ->
  exists col, x_tokens (st_world s) !! tok = Some col /\ 0 < amt <= bal s WarpA /\ amt <= col /\ to <> ModuleA /\ to <> YieldA /\
    s' = send_result (set_token s tok (col - amt)) WarpA to amt.
Proof.
  intros Hbl. inv_ok. cbn [exec]. destruct (Z.leb_spec amt 0); [done|].
  apply wp_bind, wp_gets. destruct (x_tokens (st_world s) !! tok) as [col|] eqn:Et; [|done].
  destruct (Z.ltb_spec col amt); [done|]. apply wp_bind, wp_modify. unfold send_to_account.
  destruct (c_blocked c to) eqn:Eb; [done|].
  apply send_any_spec; [lia|done|done| |lia]. intros Hle _ Hy. exists col. split; [done|].
  split; [split; [lia|]|]. { destruct Hle as [Hle|]; [exact Hle|lia]. }
  split; [done|]. split; [congruence|]. split; [done|]. done.
Qed.
