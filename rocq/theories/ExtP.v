(** Yield of external chains. *)
From Verif Require Export SeasonP.

(** * Sums *)
Lemma list_sum_app {A} (f : A -> Z) l l' : list_sum f (l ++ l') = list_sum f l + list_sum f l'.
Proof. unfold list_sum. induction l; cbn; lia. Qed.
Lemma list_sum_one {A} (f : A -> Z) x : list_sum f [x] = f x.
Proof. unfold list_sum. cbn. lia. Qed.
Lemma list_sum_delete {A} (f : A -> Z) l n x : l !! n = Some x -> list_sum f (delete n l) = list_sum f l - f x.
Proof.
  unfold list_sum. revert n. induction l as [|y l IH]; intros [|n] H; [done|done| |].
  - cbn in *. injection H as ->. lia.
  - specialize (IH n H). change (delete (S n) (y :: l)) with (y :: delete n l). cbn [foldr]. lia.
Qed.
Global Arguments list_sum : simpl never.
Global Arguments addz : simpl never.
Lemma over_fsum c tok m : over_routes c tok m = fsum (fun k v => if names_token c tok k then v else 0) m.
Proof. done. Qed.
Lemma over_addz c tok m k z : over_routes c tok (addz k z m) = over_routes c tok m + (if names_token c tok k then z else 0).
Proof.
  rewrite !over_fsum. unfold addz, mget. destruct (m !! k) as [v|] eqn:E.
  - erewrite fsum_insert_old by done. cbn. destruct (names_token c tok k); lia.
  - rewrite fsum_insert_fresh by done. cbn. destruct (names_token c tok k); lia.
Qed.
Lemma over_delete c tok m k : over_routes c tok (delete k m) = over_routes c tok m - (if names_token c tok k then mget m k else 0).
Proof.
  rewrite !over_fsum. unfold mget. destruct (m !! k) as [v|] eqn:E.
  - rewrite (fsum_delete _ m k v) by done. cbn. destruct (names_token c tok k); lia.
  - rewrite fsum_delete_none by done. cbn. destruct (names_token c tok k); lia.
Qed.

(** * The state that matters here *)
Definition eside (s : state) :=
  (d_ext_yield (st_dollar s), d_retry (st_dollar s), d_recipients (st_dollar s),
   (x_inflight (st_world s), x_acked (st_world s), x_tokens (st_world s), x_routers (st_world s), x_dispatched (st_world s))).
Definition ibc_gap (c : config) (ch : string) (s : state) : Z := ext_yield s (IBC, ch) - retry s (IBC, ch) - yield_sent c s ch.
Definition hyp_gap (c : config) (tok : Z) (s : state) : Z := hyp_external c s tok - hyp_retry c s tok - hyp_dispatched s tok.
Definition enonneg (s : state) : Prop :=
  (forall k, 0 <= retry s k) /\ (forall t v, x_tokens (st_world s) !! t = Some v -> 0 <= v).
Record ext_rel (P : Prop) (c : config) (s s' : state) : Prop := {
  er_ibc : forall ch, ibc_gap c ch s' = ibc_gap c ch s;
  er_hyp : forall tok, hyp_gap c tok s <= hyp_gap c tok s';
  er_eq : P -> forall tok, hyp_gap c tok s' = hyp_gap c tok s;
  er_rec : d_recipients (st_dollar s') = d_recipients (st_dollar s);
  er_rout : x_routers (st_world s') = x_routers (st_world s);
  er_pos : enonneg s'
}.
Lemma eside_parts s s' : eside s' = eside s ->
  d_ext_yield (st_dollar s') = d_ext_yield (st_dollar s) /\ d_retry (st_dollar s') = d_retry (st_dollar s) /\
  d_recipients (st_dollar s') = d_recipients (st_dollar s) /\ x_inflight (st_world s') = x_inflight (st_world s) /\
  x_acked (st_world s') = x_acked (st_world s) /\ x_tokens (st_world s') = x_tokens (st_world s) /\
  x_routers (st_world s') = x_routers (st_world s) /\ x_dispatched (st_world s') = x_dispatched (st_world s).
Proof. unfold eside. intros [=]. auto 10. Qed.
Lemma same_rel P c s s' : eside s' = eside s -> enonneg s -> ext_rel P c s s'.
Proof.
  intros (E1 & E2 & E3 & E4 & E5 & E6 & E7 & E8)%eside_parts [N1 N2].
  assert (Hi : forall ch, ibc_gap c ch s' = ibc_gap c ch s).
  { intros. unfold ibc_gap, ext_yield, retry, yield_sent. by rewrite E1, E2, E4, E5. }
  assert (Hh : forall tok, hyp_gap c tok s' = hyp_gap c tok s).
  { intros. unfold hyp_gap, hyp_external, hyp_retry, hyp_dispatched. by rewrite E1, E2, E8. }
  constructor; auto.
  - intros. rewrite Hh. lia.
  - split; [|by rewrite E6]. intros k. unfold retry. rewrite E2. apply N1.
Qed.
Lemma rel_refl P c s : enonneg s -> ext_rel P c s s.
Proof. by apply same_rel. Qed.
Lemma rel_trans (P Q R : Prop) c s s' s'' : (R -> P /\ Q) -> ext_rel P c s s' -> ext_rel Q c s' s'' -> ext_rel R c s s''.
Proof.
  intros HR [A1 A2 A3 A4 A5 A6] [B1 B2 B3 B4 B5 B6]. constructor.
  - intros. by rewrite B1, A1.
  - intros tok. specialize (A2 tok). specialize (B2 tok). lia.
  - intros [p q]%HR tok. by rewrite B3, A3.
  - congruence.
  - congruence.
  - done.
Qed.
Lemma rel_weaken (P Q : Prop) c s s' : (Q -> P) -> ext_rel P c s s' -> ext_rel Q c s s'.
Proof. intros H [A1 A2 A3 A4 A5 A6]. constructor; auto. Qed.
Lemma eside_send s f t x : eside (send_result s f t x) = eside s.
Proof. done. Qed.
Lemma eside_pay s a y : eside (pay s a y) = eside s.
Proof. unfold pay. by destruct (0 <? y). Qed.
Lemma eside_xfer s f t y : eside (xfer s f t y) = eside s.
Proof. unfold xfer. by destruct (0 <? y). Qed.
Lemma retry_del s k j : enonneg s -> retry (del_retry s k) j = if decide (j = k) then 0 else retry s j.
Proof.
  intros [Hn _]. unfold del_retry. destruct (Z.ltb_spec 0 (retry s k)) as [H|H].
  - unfold retry, mget. cbn. case_decide; [subst; by rewrite lookup_delete|by rewrite lookup_delete_ne].
  - case_decide; [|done]. subst. specialize (Hn k). lia.
Qed.
Lemma hyp_del c tok s k : enonneg s -> over_routes c tok (d_retry (st_dollar (del_retry s k))) =
  over_routes c tok (d_retry (st_dollar s)) - (if names_token c tok k then retry s k else 0).
Proof.
  intros [Hn _]. specialize (Hn k). unfold del_retry. destruct (Z.ltb_spec 0 (retry s k)) as [H|H].
  - cbn. apply over_delete.
  - destruct (names_token c tok k); lia.
Qed.
Lemma del_frame s k : d_ext_yield (st_dollar (del_retry s k)) = d_ext_yield (st_dollar s) /\
  d_recipients (st_dollar (del_retry s k)) = d_recipients (st_dollar s) /\ st_world (del_retry s k) = st_world s.
Proof. unfold del_retry. by destruct (0 <? _). Qed.
Lemma not_named c tok ch : names_token c tok (IBC, ch) = false.
Proof. done. Qed.

(** A booking: [dy] of new external yield, of which [dr] together with the old
    retry amount is still waiting. *)
Lemma yield_carried_self c ch rc z ch' : codec_ok c -> yield_carried c ch' (yield_packet c ch rc z) = if decide (ch = ch') then z else 0.
Proof.
  intros Hc. unfold yield_carried. cbn. rewrite !(bool_decide_true (_ = _)) by done. cbn.
  destruct (decide (ch = ch')) as [->|Hne]; [by rewrite !bool_decide_true|]. by rewrite bool_decide_false.
Qed.

Lemma claim_ibc_one_rel c x cr s : codec_ok c -> enonneg s ->
  wp (claim_ibc_one c x cr) s (fun s' _ => ext_rel True c s s') (fun s' _ => ext_rel True c s s').
Proof.
  intros Hco Hn. destruct cr as [chan rc].
  apply (claim_ibc_one_spec c x chan rc s _ _ _ _ eq_refl eq_refl); cbn zeta.
  all: set (esc := AEscrow transfer_port chan) in *; pose proof (yield_of_nonneg s esc) as Hy; set (y := yield_of s esc) in *;
    pose proof (proj1 Hn (IBC, chan)) as Hr; set (r := retry s (IBC, chan)) in *.
  4:{ intros. by apply rel_refl. }
  all: set (s1 := pay s esc y); assert (E1 : eside s1 = eside s) by apply eside_pay;
    assert (Hn1 : enonneg s1) by (eapply (er_pos True c s); by apply same_rel);
    set (s2 := del_retry s1 (IBC, chan));
    assert (Er : forall j, retry s2 j = if decide (j = (IBC, chan)) then 0 else retry s j)
      by (intros j; subst s2; rewrite retry_del by done; case_decide; [done|]; unfold retry; by destruct (eside_parts _ _ E1) as (_ & -> & _));
    assert (Eh : forall tok, over_routes c tok (d_retry (st_dollar s2)) = over_routes c tok (d_retry (st_dollar s)))
      by (intros tok; subst s2; rewrite hyp_del, not_named by done; destruct (eside_parts _ _ E1) as (_ & -> & _); lia);
    assert (Ed : d_ext_yield (st_dollar s2) = d_ext_yield (st_dollar s) /\ d_recipients (st_dollar s2) = d_recipients (st_dollar s) /\ st_world s2 = st_world s)
      by (subst s2; destruct (del_frame s1 (IBC, chan)) as (-> & -> & ->); destruct (eside_parts _ _ E1) as (-> & _ & -> & _); subst s1; by rewrite pay_world);
    destruct Ed as (Ed1 & Ed2 & Ed3).
  - intros Hle _. assert (r = 0) by lia. apply same_rel; [|done]. rewrite <- E1. subst s2. unfold del_retry.
    assert (retry s1 (IBC, chan) = 0) as ->; [|done]. unfold retry. destruct (eside_parts _ _ E1) as (_ & -> & _). done.
  - intros Hpos _ _ _.
    set (s3 := add_ext (push (send_result s2 esc esc (y + r)) (yield_packet c chan rc (y + r))) (IBC, chan) y).
    assert (Hh : forall tok, hyp_gap c tok s3 = hyp_gap c tok s).
    { intros. unfold hyp_gap, hyp_external, hyp_retry, hyp_dispatched. subst s3. cbn. rewrite over_addz, not_named, Ed1, Eh, Ed3. lia. }
    constructor; auto.
    + intros ch. unfold ibc_gap, ext_yield, yield_sent. change (retry s3 (IBC, ch)) with (retry s2 (IBC, ch)). subst s3. cbn.
      rewrite mget_addz, Ed1, Ed3, Er, list_sum_app. rewrite list_sum_one, yield_carried_self by done.
      destruct (decide (chan = ch)) as [->|Hne].
      * rewrite !decide_True by done. subst r. lia.
      * rewrite !decide_False by congruence. lia.
    + intros. rewrite Hh. lia.
    + cbn. by rewrite Ed3.
    + split; [|intros t v; cbn; rewrite Ed3; apply Hn]. intros k. change (retry s3 k) with (retry s2 k). rewrite Er. case_decide; [lia|apply Hn].
  - intros s3 Hpos _ H3.
    assert (E3 : eside s3 = eside s2) by (destruct H3 as [->|[_ ->]]; [done|apply eside_send]).
    apply eside_parts in E3 as (F1 & F2 & F3 & F4 & F5 & F6 & F7 & F8).
    set (s4 := add_ext (add_retry s3 (IBC, chan) (y + r)) (IBC, chan) y).
    assert (Hh : forall tok, hyp_gap c tok s4 = hyp_gap c tok s).
    { intros. unfold hyp_gap, hyp_external, hyp_retry, hyp_dispatched. subst s4. cbn. rewrite !over_addz, not_named, F1, F2, F8, Ed1, Eh, Ed3. lia. }
    assert (Hr4 : forall k, retry s4 k = if decide (k = (IBC, chan)) then y + r else retry s k).
    { intros k. unfold retry at 1. subst s4. cbn. rewrite mget_addz, F2. fold (retry s2 k). rewrite Er. case_decide; lia. }
    constructor; auto.
    + intros ch. unfold ibc_gap, yield_sent. rewrite Hr4. unfold ext_yield. subst s4. cbn. rewrite mget_addz, F1, Ed1, F4, F5, Ed3.
      destruct (decide (chan = ch)) as [->|Hne].
      * rewrite !decide_True by done. subst r. lia.
      * rewrite !decide_False by congruence. lia.
    + intros. rewrite Hh. lia.
    + cbn. by rewrite F3.
    + cbn. by rewrite F7, Ed3.
    + split; [|intros t v; cbn; rewrite F6, Ed3; apply Hn]. intros k. rewrite Hr4. case_decide; [lia|apply Hn].
Qed.

(** * Hyperlane routes *)
Lemma portion_exact col total y q : 0 <= col -> 0 < total -> 0 <= y -> yield_portion col total y = POk q ->
  q = col * e18 / total * y / e18.
Proof.
  intros Hc Ht Hy. unfold yield_portion, pbind, dec_quo_int, dec_of_int. rewrite (proj2 (Z.eqb_neq total 0)) by lia.
  assert (Hq : Z.quot (col * e18) total = col * e18 / total) by (apply Z.quot_div_nonneg; unfold e18; lia).
  rewrite Hq. set (z := col * e18 / total). assert (0 <= z) by (apply Z.div_pos; unfold e18; lia).
  unfold dec_mul_int. destruct (dec_fits _); [|done]. unfold dec_truncate, int_chk. destruct (int_fits _); [|done]. intros [= <-].
  apply Z.quot_div_nonneg; [|done]. by apply Z.mul_nonneg_nonneg.
Qed.
Lemma portion_nonneg col total y q : 0 <= col -> 0 < total -> 0 <= y -> yield_portion col total y = POk q -> 0 <= q.
Proof.
  intros Hc Ht Hy ->%portion_exact; auto. apply Z.div_pos; [|done]. apply Z.mul_nonneg_nonneg; [|done]. apply Z.div_pos; unfold e18; lia.
Qed.
Lemma elem_recipients s p id rc : (id, rc) ∈ recipients_of s p <-> d_recipients (st_dollar s) !! (p, id) = Some rc.
Proof.
  unfold recipients_of. rewrite merge_sort_Permutation, elem_of_list_omap. split.
  - intros ([[p' id'] rc'] & H & E). cbn in E. destruct (decide (p' = p)) as [->|]; [|done]. injection E as -> ->. by apply elem_of_map_to_list in H.
  - intros H. exists ((p, id), rc). split; [by apply elem_of_map_to_list|]. cbn. by rewrite decide_True.
Qed.
Lemma nodup_recipients s p : NoDup (recipients_of s p).*1.
Proof.
  unfold recipients_of. rewrite merge_sort_Permutation. pose proof (NoDup_fst_map_to_list (d_recipients (st_dollar s))) as H.
  induction (map_to_list (d_recipients (st_dollar s))) as [|[[p' id'] rc'] l IH]; [constructor|].
  cbn in H. apply NoDup_cons in H as [H1 H2]. specialize (IH H2). cbn [omap list_omap fst snd]. destruct (decide (p' = p)) as [->|]; [|done].
  cbn. constructor; [|done]. intros Hin. apply H1. apply elem_of_list_fmap in Hin as ([id rc] & -> & Hin).
  apply elem_of_list_omap in Hin as ([[p2 id2] rc2] & Hin & E). cbn in E. destruct (decide (p2 = p)) as [->|]; [|done].
  injection E as -> ->. apply elem_of_list_fmap. by eexists (_, _).
Qed.

Definition route_of (c : config) (s : state) (ir : string * string) (h : hyp_route) : Prop :=
  hr_id h = ir.1 /\ hr_recipient h = ir.2 /\ x_tokens (st_world s) !! hr_token h = Some (hr_collateral h) /\
  exists b, c_hex c (hr_id h) = Some b /\ hr_token h = internal_id b.
Lemma collect_routes_ok c l : forall total s,
  wp (collect_routes c l total) s (fun s' r => s' = s /\ Forall2 (route_of c s) l r.2 /\ r.1 = total + list_sum hr_collateral r.2)
    (fun s' _ => s' = s).
Proof.
  induction l as [|[id rc] l IH]; intros total s; cbn.
  - split; [done|]. split; [constructor|]. unfold list_sum. cbn. lia.
  - destruct (c_hex c id) as [b|] eqn:Eb; [|done].
    apply wp_bind, wp_gets. destruct (x_tokens (st_world s) !! internal_id b) as [col|] eqn:Et; [|done].
    apply wp_bind, wp_lift; [|intros e He; by apply int_add_err in He]. intros t ->%int_add_ok.
    apply wp_bind. eapply wp_mono; [apply IH| |done]. intros s' [tot rs] (-> & H1 & H2). apply wp_ret. cbn in *.
    split; [done|]. split.
    + constructor; [|done]. split; [done|]. split; [done|]. split; [done|]. by exists b.
    + change (list_sum hr_collateral (mk_route id rc (internal_id b) col :: rs)) with (col + list_sum hr_collateral rs). lia.
Qed.
Lemma named c h b tok : c_hex c (hr_id h) = Some b -> hr_token h = internal_id b -> names_token c tok (HYPERLANE, hr_id h) = (hr_token h =? tok).
Proof. intros E ->. unfold names_token. cbn. by rewrite E. Qed.

(** What one route does. *)
Record route_done (c : config) (s s' : state) (h : hyp_route) (q : Z) (D : list hypmsg) : Prop := {
  rd_ext : forall k, ext_yield s' k = ext_yield s k + (if decide (k = (HYPERLANE, hr_id h)) then q else 0);
  rd_retry : forall k, k <> (HYPERLANE, hr_id h) -> retry s' k = retry s k;
  rd_disp : x_dispatched (st_world s') = x_dispatched (st_world s) ++ D;
  rd_own : (retry s' (HYPERLANE, hr_id h) = retry s (HYPERLANE, hr_id h) + q /\ D = []) \/
    (retry s' (HYPERLANE, hr_id h) = 0 /\ exists d rc, x_routers (st_world s) !! hr_token h = Some [d] /\ c_hex c (hr_recipient h) = Some rc /\
       D = [mk_hypmsg WarpA (hr_token h) d rc (retry s (HYPERLANE, hr_id h) + q)])
}.
Lemma claim_hyp_one_rel c x total y h s b : enonneg s -> 0 <= hr_collateral h -> 0 < total -> 0 <= y ->
  c_hex c (hr_id h) = Some b -> hr_token h = internal_id b -> d_recipients (st_dollar s) !! (HYPERLANE, hr_id h) = Some (hr_recipient h) ->
  wp (claim_hyp_one c x total y h) s
    (fun s' _ => ext_rel True c s s' /\ exists q D, yield_portion (hr_collateral h) total y = POk q /\ route_done c s s' h q D)
    (fun s' _ => ext_rel (routes_ready c s) c s s').
Proof.
  intros Hn Hcol Htot Hy Eb Et Erc. apply claim_hyp_one_spec. intros q Hq. pose proof (portion_nonneg _ _ _ _ Hcol Htot Hy Hq) as Hq0.
  set (k := (HYPERLANE, hr_id h)) in *. set (r := retry s k) in *. assert (Hr : 0 <= r) by apply Hn.
  set (s2 := del_retry s k).
  assert (Er : forall j, retry s2 j = if decide (j = k) then 0 else retry s j) by (intros j; by apply retry_del).
  assert (Eh : forall tok, over_routes c tok (d_retry (st_dollar s2)) = over_routes c tok (d_retry (st_dollar s)) - (if hr_token h =? tok then r else 0)).
  { intros tok. subst s2. rewrite hyp_del by done. unfold k at 1. by rewrite (named c h b). }
  destruct (del_frame s k) as (Ed1 & Ed2 & Ed3). fold s2 in Ed1, Ed2, Ed3.
  split; [|split; [|split]].
  - intros Hle. assert (r = 0) by lia. assert (q = 0) as -> by lia.
    assert (E2 : s2 = s) by (subst s2; unfold del_retry; by rewrite (proj2 (Z.ltb_ge 0 _)) by (fold r; lia)). rewrite E2.
    split; [by apply rel_refl|]. exists 0, []. split; [done|]. constructor; auto.
    + intros. case_decide; lia.
    + by rewrite app_nil_r.
    + left. split; [lia|done].
  - intros Hp Hb _ domain rc Ed Ex. set (m := mk_hypmsg WarpA (hr_token h) domain rc (q + r)).
    set (s3 := add_ext (dispatch (set_token (send_result s2 WarpA WarpA (q + r)) (hr_token h) (hr_collateral h + (q + r))) m) k q).
    assert (Hh : forall tok, hyp_gap c tok s3 = hyp_gap c tok s).
    { intros tok. unfold hyp_gap, hyp_external, hyp_retry, hyp_dispatched. subst s3. cbn. unfold k at 1. rewrite over_addz, (named c h b), Ed1, Eh, Ed3, list_sum_app, list_sum_one by done.
      subst m. cbn [hm_sender hm_token hm_amount]. rewrite bool_decide_true by done. cbn [andb]. destruct (hr_token h =? tok); lia. }
    split.
    + constructor; auto.
      * intros ch. unfold ibc_gap, ext_yield, yield_sent. change (retry s3 (IBC, ch)) with (retry s2 (IBC, ch)). subst s3. cbn.
        rewrite mget_addz, Ed1, Ed3, Er. rewrite !decide_False by done. lia.
      * intros. rewrite Hh. lia.
      * cbn. by rewrite Ed3.
      * split; [intros j; change (retry s3 j) with (retry s2 j); rewrite Er; case_decide; [lia|apply Hn]|].
        intros t v. cbn. rewrite Ed3. intros [[<- <-]|[_ ?]]%lookup_insert_Some; [lia|by eapply Hn].
    + exists q, [m]. split; [done|]. constructor.
      * intros j. unfold ext_yield. subst s3. cbn. by rewrite mget_addz, Ed1.
      * intros j Hj. change (retry s3 j) with (retry s2 j). rewrite Er. by rewrite decide_False.
      * subst s3. cbn. by rewrite Ed3.
      * right. fold k. change (retry s3 k) with (retry s2 k). rewrite Er. rewrite decide_True by done. split; [done|]. exists domain, rc. split; [done|]. split; [done|]. subst m. fold k r. by rewrite (Z.add_comm r q).
  - intros s3 Hp H3.
    assert (E3 : d_ext_yield (st_dollar s3) = d_ext_yield (st_dollar s2) /\ d_retry (st_dollar s3) = d_retry (st_dollar s2) /\
      d_recipients (st_dollar s3) = d_recipients (st_dollar s2) /\ x_inflight (st_world s3) = x_inflight (st_world s2) /\
      x_acked (st_world s3) = x_acked (st_world s2) /\ x_routers (st_world s3) = x_routers (st_world s2) /\ x_dispatched (st_world s3) = x_dispatched (st_world s2) /\
      (forall t v, x_tokens (st_world s3) !! t = Some v -> 0 <= v)).
    { assert (HT : forall t v, x_tokens (st_world s2) !! t = Some v -> 0 <= v) by (rewrite Ed3; apply Hn).
      destruct H3 as [->|[_ ->]]; cbn; repeat (split; [done|]); [done|].
      intros t v. intros [[<- <-]|[_ ?]]%lookup_insert_Some; [lia|by eapply HT]. }
    destruct E3 as (F1 & F2 & F3 & F4 & F5 & F6 & F7 & F8).
    set (s4 := add_ext (add_retry s3 k (q + r)) k q).
    assert (Hr4 : forall j, retry s4 j = if decide (j = k) then q + r else retry s j).
    { intros j. unfold retry at 1. subst s4. cbn. rewrite mget_addz, F2. fold (retry s2 j). rewrite Er. case_decide; lia. }
    assert (Hh : forall tok, hyp_gap c tok s4 = hyp_gap c tok s).
    { intros tok. unfold hyp_gap, hyp_external, hyp_retry, hyp_dispatched. subst s4. cbn. unfold k.
      rewrite !over_addz, !(named c h b), F1, F2, F7, Ed1, Eh, Ed3 by done. destruct (hr_token h =? tok); lia. }
    split.
    + constructor; auto.
      * intros ch. unfold ibc_gap, yield_sent. rewrite Hr4. unfold ext_yield. subst s4. cbn.
        rewrite mget_addz, F1, F4, F5, Ed1, Ed3. rewrite !decide_False by done. lia.
      * intros. rewrite Hh. lia.
      * cbn. by rewrite F3.
      * cbn. by rewrite F6, Ed3.
      * split; [intros j; rewrite Hr4; case_decide; [lia|apply Hn]|]. exact F8.
    + exists q, []. split; [done|]. constructor.
      * intros j. unfold ext_yield. subst s4. cbn. by rewrite mget_addz, F1, Ed1.
      * intros j Hj. rewrite Hr4. by rewrite decide_False.
      * subst s4. cbn. by rewrite F7, Ed3, app_nil_r.
      * left. fold k. rewrite Hr4. rewrite decide_True by done. split; [lia|done].
  - intros Hp Hbad e. fold s2. constructor.
    + intros ch. unfold ibc_gap, ext_yield, yield_sent. rewrite Er, Ed1, Ed3. rewrite decide_False by done. done.
    + intros tok. unfold hyp_gap, hyp_external, hyp_retry, hyp_dispatched. rewrite Ed1, Eh, Ed3. destruct (hr_token h =? tok); lia.
    + intros Hready. exfalso. destruct (Hready _ _ Erc) as (b' & d & E1 & E2 & E3). assert (b' = b) as -> by congruence. change (be_decode (drop 24 b)) with (internal_id b) in E2. rewrite <- Et in E2.
      destruct Hbad as [Hbad|Hbad]; [by apply (Hbad d)|]. rewrite Hbad in E3. by destruct E3.
    + done.
    + by rewrite Ed3.
    + split; [intros j; rewrite Er; case_decide; [lia|apply Hn]|]. rewrite Ed3. apply Hn.
Qed.

(** * The loops *)
Definition proper_route (c : config) (s : state) (h : hyp_route) : Prop :=
  0 <= hr_collateral h /\ d_recipients (st_dollar s) !! (HYPERLANE, hr_id h) = Some (hr_recipient h) /\
  exists b, c_hex c (hr_id h) = Some b /\ hr_token h = internal_id b.
Record routes_done (c : config) (s s' : state) (total y : Z) (rs : list hyp_route) : Prop := {
  ro_other : forall k, (forall h, h ∈ rs -> k <> (HYPERLANE, hr_id h)) -> ext_yield s' k = ext_yield s k /\ retry s' k = retry s k;
  ro_disp : exists D, x_dispatched (st_world s') = x_dispatched (st_world s) ++ D /\
    forall h, h ∈ rs -> exists q, yield_portion (hr_collateral h) total y = POk q /\
      let k := (HYPERLANE, hr_id h) in
      ext_yield s' k = ext_yield s k + q /\
      (retry s' k = retry s k + q \/
       retry s' k = 0 /\ exists d rc, x_routers (st_world s) !! hr_token h = Some [d] /\ c_hex c (hr_recipient h) = Some rc /\
         mk_hypmsg WarpA (hr_token h) d rc (retry s k + q) ∈ D)
}.
Lemma hyp_loop c x total y rs : 0 < total -> 0 <= y -> forall s, enonneg s -> Forall (proper_route c s) rs -> NoDup (hr_id <$> rs) ->
  wp (for_each (claim_hyp_one c x total y) rs) s (fun s' _ => ext_rel True c s s' /\ routes_done c s s' total y rs) (fun s' _ => ext_rel (routes_ready c s) c s s').
Proof.
  intros Ht Hy. induction rs as [|h rs IH]; intros s Hn Hf Hd; cbn [for_each].
  - apply wp_ret. split; [by apply rel_refl|]. constructor; [done|]. exists []. split; [by rewrite app_nil_r|]. intros h Hh. by apply elem_of_nil in Hh.
  - apply Forall_cons in Hf as [(C1 & C2 & b & C3 & C4) Hf]. cbn in Hd. apply NoDup_cons in Hd as [Hnin Hd].
    apply wp_bind. eapply wp_mono; [apply (claim_hyp_one_rel c x total y h s b); done| |]; [|cbn; auto].
    intros s1 [] [R1 (q & D1 & Hq & [G1 G2 G3 G4])].
    assert (Hf1 : Forall (proper_route c s1) rs).
    { eapply Forall_impl; [exact Hf|]. intros h' (P1 & P2 & P3). split; [done|]. split; [|done]. by rewrite (er_rec _ _ _ _ R1). }
    eapply wp_mono; [apply (IH s1 (er_pos _ _ _ _ R1) Hf1 Hd)| |].
    + intros s2 [] [R2 [O1 (D2 & O2 & O3)]]. split; [eapply rel_trans; [|exact R1|exact R2]; done|].
      assert (Hnot : forall h', h' ∈ rs -> (HYPERLANE, hr_id h) <> (HYPERLANE, hr_id h')).
      { intros h' Hh' [= E]. apply Hnin. rewrite E. by apply elem_of_list_fmap_1. }
      constructor.
      * intros k Hk. destruct (O1 k) as [-> ->]; [intros h' Hh'; apply Hk; by right|]. rewrite G1, G2 by (apply Hk; by left).
        rewrite decide_False by (apply Hk; by left). split; [lia|done].
      * exists (D1 ++ D2). split; [by rewrite O2, G3, app_assoc|]. intros h' [->|Hin]%elem_of_cons.
        -- exists q. split; [done|]. cbn zeta. destruct (O1 (HYPERLANE, hr_id h) Hnot) as [-> ->]. rewrite G1. rewrite decide_True by done.
           split; [done|]. destruct G4 as [[-> _]|[-> (d & rc & E1 & E2 & ->)]]; [by left|]. right. split; [done|]. exists d, rc. do 2 (split; [done|]).
           apply elem_of_app. left. by apply elem_of_list_singleton.
        -- destruct (O3 h' Hin) as (q' & Hq' & O4 & O5). exists q'. split; [done|]. cbn zeta in *.
           assert (Hne : (HYPERLANE, hr_id h') <> (HYPERLANE, hr_id h)) by (intros E; by apply (Hnot h' Hin)).
           rewrite O4, G1. rewrite decide_False by done. split; [lia|]. rewrite (G2 _ Hne) in O5. destruct O5 as [->|[-> (d & rc & E1 & E2 & E3)]]; [by left|].
           right. split; [done|]. exists d, rc. rewrite (er_rout _ _ _ _ R1) in E1. do 2 (split; [done|]). apply elem_of_app. by right.
    + intros s2 e R2. eapply rel_trans; [|exact R1|exact R2]. intros Hr. split; [done|].
      intros id rc. rewrite (er_rec _ _ _ _ R1), (er_rout _ _ _ _ R1). apply Hr.
Qed.
Lemma routes_proper c s l rs : enonneg s -> (forall id rc, (id, rc) ∈ l -> d_recipients (st_dollar s) !! (HYPERLANE, id) = Some rc) ->
  Forall2 (route_of c s) l rs -> Forall (proper_route c s) rs /\ hr_id <$> rs = l.*1.
Proof.
  intros Hn Hl H. induction H as [|[id rc] h l rs (R1 & R2 & R3 & b & R4 & R5) H IH]; [done|]. cbn in *. destruct IH as [I1 I2].
  - intros. apply Hl. by right.
  - split; [|by rewrite R1, I2]. constructor; [|done]. split; [by eapply Hn|]. split; [|by exists b]. rewrite R1, R2. apply Hl. by left.
Qed.
Lemma route_of_same c s s' ir h : x_tokens (st_world s') = x_tokens (st_world s) -> route_of c s ir h -> route_of c s' ir h.
Proof. intros E (R1 & R2 & R3 & R4). split; [done|]. split; [done|]. by rewrite E. Qed.

Lemma ibc_loop c x l : codec_ok c -> forall s, enonneg s ->
  wp (for_each (claim_ibc_one c x) l) s (fun s' _ => ext_rel True c s s') (fun s' _ => ext_rel True c s s').
Proof.
  intros Hco. induction l as [|cr l IH]; intros s Hn; cbn [for_each]; [by apply rel_refl|].
  apply wp_bind. eapply wp_mono; [by apply claim_ibc_one_rel| |done].
  intros s1 [] R1. eapply wp_mono; [apply IH, (er_pos _ _ _ _ R1)| |]; intros s2 ? R2; (eapply rel_trans; [|exact R1|exact R2]; done).
Qed.
Lemma ext_hyp_rel c x s : enonneg s ->
  wp (claim_external_hyp c x) s (fun s' _ => ext_rel True c s s') (fun s' _ => ext_rel (routes_ready c s) c s s').
Proof.
  intros Hn. unfold claim_external_hyp. apply wp_bind, wp_gets, wp_bind, claim_module_spec.
  2:{ intros. by apply rel_refl. }
  intros _. pose proof (yield_of_nonneg s WarpA) as Hy. set (y := yield_of s WarpA) in *. set (s1 := pay s WarpA y).
  assert (R1 : forall P, ext_rel P c s s1) by (intros; apply same_rel; [apply eside_pay|done]).
  destruct (Z.ltb_spec 0 y); cbn [negb]; [|by apply wp_ret].
  apply wp_bind. eapply wp_mono; [apply collect_routes_ok| |]; cbn beta; [|intros ? ? ->; done].
  intros s2 [tot rs] (-> & H1 & H2). cbn [fst snd] in *. destruct (Z.ltb_spec 0 tot); cbn [negb]; [|by apply wp_ret].
  assert (Hrec : d_recipients (st_dollar s1) = d_recipients (st_dollar s)) by apply (er_rec _ _ _ _ (R1 True)).
  apply routes_proper in H1 as [H1 H3]; [|apply (er_pos _ _ _ _ (R1 True))|].
  2:{ intros id rc Hin. rewrite Hrec. by apply elem_recipients. }
  eapply wp_mono; [apply (hyp_loop c x tot y rs); [done|done|apply (er_pos _ _ _ _ (R1 True))|done|rewrite H3; apply nodup_recipients]| |].
  - intros s2 [] [R2 _]. eapply rel_trans; [|exact (R1 True)|exact R2]. done.
  - intros s2 e R2. eapply rel_trans; [|exact (R1 True)|exact R2]. intros Hr. split; [done|]. intros id rc. rewrite Hrec, (er_rout _ _ _ _ (R1 True)). apply Hr.
Qed.

(** The vault part of an index update does not matter here. *)
Lemma season_eside c i s : good_collector s ->
  wp (if v_ended (st_vaults s) then vaults_yield_season_two c else vaults_yield_season_one c i) s
    (fun s' _ => eside s' = eside s) (fun s' _ => eside s' = eside s).
Proof.
  intros [Hg1 Hg2]. destruct (v_ended (st_vaults s)).
  - unfold vaults_yield_season_two. apply wp_bind, claim_module_spec; [|done]. intros _. set (y := yield_of s StakedA).
    destruct (0 <? y) eqn:Ey; cbn [negb]; [|apply wp_ret, eside_pay].
    apply wp_bind, wp_gets, wp_bind, new_coins_spec. intros _. rewrite pay_vaults. apply Z.ltb_lt in Ey.
    apply send_plain_spec; try done; [lia|..]; intros _; [rewrite eside_xfer|]; apply eside_pay.
  - unfold vaults_yield_season_one. apply wp_bind, claim_module_spec; [|done]. intros _. set (y := yield_of s FlexibleA).
    apply wp_bind, (claim_staked_spec c _ _ _ _ eq_refl).
    + intros _. apply wp_bind, wp_gets, wp_bind, wp_lift; [|intros e He'; by apply int_add_err in He']. intros z _. apply wp_modify. apply eside_pay.
    + intros yp _ _. apply wp_bind, wp_gets, wp_bind, wp_lift; [|intros e He'; by apply int_add_err in He']. intros z _. apply wp_modify. apply eside_pay.
    + intros. apply eside_pay.
Qed.
Lemma eside_accrued s i n d : eside (accrued s i n d) = eside s.
Proof. unfold accrued. by destruct (0 <? n). Qed.
Lemma update_rel c x i s : codec_ok c -> good_collector s -> 0 <= bal s ModuleA -> enonneg s ->
  wp (update_index c x i) s (fun s' _ => ext_rel True c s s') (fun s' _ => ext_rel (routes_ready c s) c s s').
Proof.
  intros Hco [Hg1 Hg2] Hb Hn. unfold update_index, get_index. apply wp_bind, wp_gets.
  destruct (i <=? current_index s); [by apply wp_fail, rel_refl|].
  apply wp_bind, (accrue_spec i s _ _ _ eq_refl); [done| |].
  2:{ intros _ _. apply same_rel; [apply eside_accrued|done]. }
  intros _. set (n := present _ _ - _). set (s1 := accrued s i n n).
  assert (Hv : st_vaults s1 = st_vaults s) by (subst s1; unfold accrued; by destruct (0 <? n)).
  assert (E1 : eside s1 = eside s) by apply eside_accrued.
  apply wp_bind, wp_gets, wp_bind. eapply wp_mono; [apply (season_eside c i s1); split; by rewrite Hv| |]; cbn beta.
  2:{ intros s2 e E2. apply same_rel; [congruence|done]. }
  intros s2 [] E2. assert (R2 : ext_rel True c s s2) by (apply same_rel; [congruence|done]).
  apply wp_bind. unfold claim_external_ibc. apply wp_bind, wp_gets.
  eapply wp_mono; [apply (ibc_loop c x _ Hco s2), (er_pos _ _ _ _ R2)| |]; cbn beta.
  2:{ intros s3 e R3. eapply rel_trans; [|exact R2|exact R3]. done. }
  intros s3 [] R3. assert (R03 : ext_rel True c s s3) by (eapply rel_trans; [|exact R2|exact R3]; done).
  eapply wp_mono; [apply (ext_hyp_rel c x s3), (er_pos _ _ _ _ R03)| |]; cbn beta.
  - intros s4 [] R4. eapply rel_trans; [|exact R03|exact R4]. done.
  - intros s4 e R4. eapply rel_trans; [|exact R03|exact R4]. intros Hr. split; [done|].
    intros id rc. rewrite (er_rec _ _ _ _ R03), (er_rout _ _ _ _ R03). apply Hr.
Qed.

(** * Messages *)
Record ext_step (P : Prop) (c : config) (s s' : state) : Prop := {
  es_ibc : forall ch, ibc_gap c ch s' = ibc_gap c ch s;
  es_hyp : forall tok, hyp_gap c tok s <= hyp_gap c tok s';
  es_eq : P -> forall tok, hyp_gap c tok s' = hyp_gap c tok s;
  es_pos : enonneg s'
}.
Lemma rel_step P c s s' : ext_rel P c s s' -> ext_step P c s s'.
Proof. intros [A1 A2 A3 A4 A5 A6]. by constructor. Qed.
Lemma same_step P c s s' : d_ext_yield (st_dollar s') = d_ext_yield (st_dollar s) -> d_retry (st_dollar s') = d_retry (st_dollar s) ->
  (forall ch, yield_sent c s' ch = yield_sent c s ch) -> (forall tok, hyp_dispatched s' tok = hyp_dispatched s tok) ->
  (forall t v, x_tokens (st_world s') !! t = Some v -> 0 <= v) -> enonneg s -> ext_step P c s s'.
Proof.
  intros E1 E2 E3 E4 E5 [N1 N2].
  assert (Hh : forall tok, hyp_gap c tok s' = hyp_gap c tok s).
  { intros. unfold hyp_gap, hyp_external, hyp_retry. by rewrite E1, E2, E4. }
  constructor; auto.
  - intros ch. unfold ibc_gap, ext_yield, retry. by rewrite E1, E2, E3.
  - intros. rewrite Hh. lia.
  - split; [|done]. intros k. unfold retry. rewrite E2. apply N1.
Qed.
Lemma not_usdn_carried c ch p : is_usdn c p = false -> yield_carried c ch p = 0.
Proof.
  unfold is_usdn, yield_carried. destruct (pk_data p) as [d|]; [|done]. intros ->. by rewrite andb_false_r.
Qed.
Lemma ibc_packet_carried c ch chan rc a z : yield_carried c ch (ibc_packet c chan rc a z) =
  if decide (chan = ch) then (if is_yield_packet c (ibc_packet c chan rc a z) then z else 0) else 0.
Proof.
  unfold yield_carried, is_yield_packet, ibc_packet. cbn. rewrite !(bool_decide_true (_ = _)) by done. cbn.
  destruct (decide (chan = ch)) as [->|]; [|by rewrite (bool_decide_false (chan = ch))]. rewrite (bool_decide_true (ch = ch)) by done. done.
Qed.
Lemma external_carried c ch chan rc a z : codec_ok c -> external a = true -> yield_carried c ch (ibc_packet c chan rc a z) = 0.
Proof.
  intros Hc Ha. rewrite ibc_packet_carried. case_decide; [|done]. unfold is_yield_packet. cbn. rewrite (bool_decide_true (c_denom c = c_denom c)) by done. cbn.
  rewrite bool_decide_false; [done|]. intros E. apply (f_equal (c_dec c)) in E. rewrite !(codec_roundtrip c Hc) in E. injection E as ->. done.
Qed.
(** A packet that failed. *)
Lemma failed_retry c s p s' : failed_packet c s p s' -> 
  (forall k, retry s' k = retry s k + (if decide (k = (IBC, pk_chan p)) then yield_carried c (pk_chan p) p else 0)) /\
  (forall tok, over_routes c tok (d_retry (st_dollar s')) = over_routes c tok (d_retry (st_dollar s))) /\
  d_ext_yield (st_dollar s') = d_ext_yield (st_dollar s) /\ st_world s' = st_world s /\ 0 <= yield_carried c (pk_chan p) p.
Proof.
  unfold failed_packet. destruct (is_usdn c p) eqn:Eu.
  2:{ intros ->. rewrite not_usdn_carried by done. split; [|auto with lia]. intros. case_decide; lia. }
  intros (a & z & rc & Hp & Hz & Ha & ->). rewrite Hp, ibc_packet_carried, <- Hp. cbn [pk_chan ibc_packet]. rewrite decide_True by done.
  destruct (is_yield_packet c p); cbn.
  - split; [|split; [|split; [done|split; [done|lia]]]].
    + intros k. unfold retry. cbn. by rewrite mget_addz.
    + intros tok. rewrite over_addz, not_named. lia.
  - split; [|auto with lia]. intros k. change (retry (send_result s (AEscrow transfer_port (pk_chan p)) a z) k) with (retry s k). case_decide; lia.
Qed.
Lemma failed_step P c s p n s' : enonneg s -> x_inflight (st_world s) !! n = Some p -> failed_packet c (take_inflight s n) p s' -> ext_step P c s s'.
Proof.
  intros Hn Hp (F1 & F2 & F3 & F4 & F5)%failed_retry.
  assert (Hh : forall tok, hyp_gap c tok s' = hyp_gap c tok s).
  { intros. unfold hyp_gap, hyp_external, hyp_retry, hyp_dispatched. by rewrite F2, F3, F4. }
  constructor; auto.
  - intros ch. assert (Hs : yield_sent c s' ch = yield_sent c s ch - yield_carried c ch p).
    { unfold yield_sent. rewrite F4. change (x_acked (st_world (take_inflight s n))) with (x_acked (st_world s)).
      change (x_inflight (st_world (take_inflight s n))) with (delete n (x_inflight (st_world s))). rewrite (list_sum_delete _ _ _ p) by done. lia. }
    unfold ibc_gap, ext_yield. rewrite F1, F3, Hs.
    change (retry (take_inflight s n) (IBC, ch)) with (retry s (IBC, ch)).
    change (d_ext_yield (st_dollar (take_inflight s n))) with (d_ext_yield (st_dollar s)).
    destruct (decide (ch = pk_chan p)) as [->|Hne].
    + rewrite decide_True by done. lia.
    + rewrite decide_False by congruence. assert (yield_carried c ch p = 0) as ->; [|lia].
      unfold yield_carried. destruct (pk_data p); [|done]. rewrite (bool_decide_false (pk_chan p = ch)) by done. by rewrite andb_false_r.
  - intros. rewrite Hh. lia.
  - split; [|rewrite F4; apply Hn]. intros k. rewrite F1. change (retry (take_inflight s n) k) with (retry s k). pose proof (proj1 Hn k). case_decide; lia.
Qed.

Lemma deliver_rel c x bz s s' : chain_ok c -> wfs c s -> enonneg s -> deliver c x bz s = Ok s' tt ->
  ext_rel (routes_ready c s \/ is_Some (carried_index c bz)) c s s'.
Proof.
  intros Hc Hw Hn H. destruct (deliver_calls _ _ _ _ _ H) as (v & pl & Ha & Hh). set (s0 := consume s (va_digest v)) in *.
  assert (Hn0 : enonneg s0) by exact Hn. assert (R0 : forall P, ext_rel P c s s0) by (intros; by apply same_rel).
  assert (Hg0 : good_collector s0) by apply Hw. assert (Hb0 : 0 <= bal s0 ModuleA) by (change (bal s0 ModuleA) with (bal s ModuleA); rewrite (wf_module _ _ Hw); lia).
  pose proof (ok_codec _ Hc) as Hco. pose proof (ok_blocked _ Hc) as Hbl.
  assert (HG : ext_rel (routes_ready c s0 \/ is_Some (carried_index c bz)) c s0 s').
  2:{ eapply rel_trans; [|exact (R0 True)|exact HG]. done. }
  destruct (carried_index c bz) as [i|] eqn:Ei.
  - destruct (index_calls _ _ _ _ _ _ Ei H) as [d Hu].
    pose proof (wp_ok _ _ _ _ _ _ (update_rel c x i (consume s d) Hco ltac:(apply Hw) Hb0 Hn) Hu) as R.
    cbn beta in R. eapply rel_trans; [|apply (same_rel True c s0 (consume s d)); [done|exact Hn0]|exact R]. done.
  - unfold carried_index in Ei. rewrite (carried_eq _ _ _ _ _ Ha) in Ei. revert Hh.
    apply (wp_ok _ _ (fun s' _ => ext_rel (routes_ready c s0 \/ is_Some (None : option Z)) c s0 s') top2).
    unfold handle_payload. apply wp_bind, wp_lift; [|done]. intros ty Hty. rewrite Hty in Ei. destruct ty.
    + apply wp_ret. by apply rel_refl.
    + apply wp_bind, wp_lift; [|done]. intros t Ht. destruct (negb _); [done|]. destruct (negb _); [done|].
      unfold mint. apply wp_bind.
      assert (W1 : wp (try (update_index c x (tk_index t))) s0 (fun s1 _ => ext_rel (routes_ready c s0) c s0 s1) top2).
      { apply wp_try. eapply wp_mono; [apply (update_rel c x (tk_index t) s0 Hco Hg0 Hb0 Hn0)| |]; cbn beta; [|done].
        intros s1 _ R1. by eapply rel_weaken; [|exact R1]. }
      assert (W2 : wp (try (update_index c x (tk_index t))) s0 (fun s1 _ => index_tried c (tk_index t) s0 s1) top2).
      { apply update_index_tried; auto. }
      eapply wp_mono; [apply (wp_conj _ _ _ _ _ _ W1 W2)| |done]. intros s1 b [R1 T1].
      destruct (index_tried_frame _ _ _ _ T1 Hg0) as (_ & Hb1 & _).
      apply issue_spec; [lia|done|]. intros _ _ _. eapply (rel_trans _ True); [|exact R1|].
      * intros [?|[? ?]]; done.
      * apply same_rel; [|apply (er_pos _ _ _ _ R1)]. unfold issued. by destruct (0 <? tk_amount t).
    + apply wp_bind, wp_lift; [|done]. intros [i d] Hd. rewrite Hd in Ei. done.
Qed.
Definition careful (c : config) (s : state) (o : op) : Prop :=
  match o with OpDeliver _ bz => routes_ready c s \/ is_Some (carried_index c bz) | _ => True end.
Lemma ext_op c o s s' : chain_ok c -> winv c s -> enonneg s -> exec c o s = Ok s' tt -> ext_step (careful c s o) c s s'.
Proof.
  intros Hc [Hw Hp] Hn H. pose proof (ok_blocked _ Hc) as Hbl. pose proof (ok_codec _ Hc) as Hco.
  pose proof (wf_packets _ _ Hw) as Hpk.
  destruct (administrative o) eqn:Ha.
  { apply admin_inv in H; [|done]. destruct o; try discriminate; cbn in H; decompose [and] H; subst s'; try (apply same_step; try done; apply Hn).
    - apply same_step; try done; [|apply Hn]. intros ch. unfold yield_sent. cbn. rewrite list_sum_app, list_sum_one, not_usdn_carried by done. lia.
    - apply same_step; try done. intros t v. cbn. intros [[<- <-]|[_ ?]]%lookup_insert_Some; [lia|by eapply Hn]. }
  assert (HS : forall s', eside s' = eside s -> ext_step (careful c s o) c s s') by (intros; apply rel_step; by apply same_rel).
  destruct o; try discriminate.
  - destruct (claim_inv' _ _ _ _ H) as (b & y & _ & _ & _ & _ & _ & ->). apply HS, eside_pay.
  - destruct (lock_inv' _ _ _ _ _ _ Hc H) as (b & amt & _ & _ & _ & _ & _ & _ & _ & _ & ->). apply HS.
    unfold lock_result, lock_state, add_flex. by destruct (vault =? FLEXIBLE).
  - destruct (unlock_inv' _ _ _ _ _ _ Hp H) as (b & amt & d & s1 & _ & _ & _ & _ & _ & _ & _ & _ & Hu & ->).
    apply unls_frame in Hu as (_ & _ & _ & _ & _ & _ & _ & Hx & Hd). apply HS. unfold dside in Hd. injection Hd as _ D1 D2 D3 _.
    change (eside (unlock_result s1 (AUser b) vault d)) with (eside s1). unfold eside. by rewrite Hx, D1, D2, D3.
  - apply rel_step, (deliver_rel c x vaa s s' Hc Hw Hn H).
  - destruct (transfer_inv' _ _ _ _ _ _ _ _ _ (wf_module _ _ Hw) H)
      as (b & amt & pr & sender & id & _ & -> & Hamt & _ & _ & _ & _ & _ & _ & _ & _ & ->).
    apply HS. destruct (frame_burned (bump_nonce s) (AUser b) amt) as (_ & _ & E1 & E2 & _ & E3 & _ & _ & E4). unfold eside.
    change (st_dollar (OpsP.post ?a ?b)) with (st_dollar a). rewrite E1, E2, E3. cbn. by rewrite E4.
  - destruct (op_send_inv _ _ _ _ _ _ Hbl H) as (_ & _ & _ & _ & ->). by apply HS.
  - destruct (op_multi_inv _ _ _ _ _ Hbl H) as (_ & _ & _ & _ & Hmu). apply multi_frame in Hmu as (_ & _ & Hx & [= _ _ D1 D2 D3] & _).
    apply HS. unfold eside. by rewrite Hx, D1, D2, D3.
  - destruct (op_ibc_send_inv _ _ _ _ _ _ _ _ H) as (He & Hamt & _ & ->). apply same_step; try done; [|apply Hn].
    intros ch. unfold yield_sent. cbn. rewrite list_sum_app, list_sum_one, external_carried by done. lia.
  - destruct (op_ibc_recv_inv _ _ _ _ _ _ Hbl H) as (a & _ & _ & [[_ ->]|(_ & _ & _ & ->)]); by apply HS.
  - destruct (op_ibc_ack_inv _ _ _ _ _ Hco Hpk H) as (p & Hpp & [[_ ->]|[_ Hf]]).
    + apply same_step; try done; [|apply Hn]. intros ch. unfold yield_sent. cbn. rewrite list_sum_app, list_sum_one.
      rewrite (list_sum_delete _ _ _ p) by done. lia.
    + by eapply failed_step.
  - destruct (op_ibc_timeout_inv _ _ _ _ Hco Hpk H) as (p & Hpp & Hf). by eapply failed_step.
  - destruct (op_warp_send_inv c _ _ _ _ _ _ _ _ H) as (col & Hcol & He & Hamt & _ & ->). apply same_step; try done.
    + intros tok. unfold hyp_dispatched. cbn. rewrite list_sum_app, list_sum_one. cbn [hm_sender]. rewrite bool_decide_false; [cbn; lia|].
      intros ->. done.
    + intros t v. cbn. intros [[<- <-]|[_ ?]]%lookup_insert_Some; [|by eapply Hn]. apply (proj2 Hn) in Hcol. lia.
  - destruct (op_warp_recv_inv _ _ _ _ _ _ Hbl H) as (col & Hcol & ? & ? & _ & _ & ->). apply same_step; try done.
    intros t v. cbn. intros [[<- <-]|[_ ?]]%lookup_insert_Some; [|by eapply Hn]. lia.
Qed.

(** * The ledgers *)
Definition einv (c : config) (s : state) : Prop :=
  (forall ch, ibc_gap c ch s = 0) /\ (forall tok, 0 <= hyp_gap c tok s) /\ enonneg s.
Lemma einv_fresh c s : fresh c s -> einv c s.
Proof.
  intros [] . unfold einv, ibc_gap, hyp_gap, ext_yield, retry, yield_sent, hyp_external, hyp_retry, hyp_dispatched.
  rewrite fresh_ext, fresh_retry, fresh_inflight, fresh_acked, fresh_dispatched. split; [done|]. split; [done|].
  split; [intros k; unfold retry; rewrite fresh_retry; done|]. by rewrite fresh_tokens.
Qed.
Lemma einv_reachable c s : chain_ok c -> reachable c s -> einv c s.
Proof.
  intros Hc Hr. apply (reachable_inv (einv c) c s Hc Hr); [apply einv_fresh|]. intros s1 s2 o W (I1 & I2 & I3) E.
  destruct (ext_op _ _ _ _ Hc W I3 E) as [J1 J2 _ J4]. split; [|split; [|done]].
  - intros. by rewrite J1.
  - intros tok. specialize (I2 tok). specialize (J2 tok). lia.
Qed.
Theorem ibc_ledger c s ch : chain_ok c -> reachable c s ->
  external_of s IBC ch = retry_of s IBC ch + yield_sent c s ch /\ 0 <= retry_of s IBC ch.
Proof.
  intros Hc Hr. destruct (einv_reachable _ _ Hc Hr) as (I1 & _ & I3 & _). specialize (I1 ch). specialize (I3 (IBC, ch)).
  unfold ibc_gap in I1. change (retry s (IBC, ch)) with (retry_of s IBC ch) in *. change (ext_yield s (IBC, ch)) with (external_of s IBC ch) in *. lia.
Qed.
Theorem packet_failed c s s' n o : chain_ok c -> reachable c s -> o = OpIbcTimeout n \/ o = OpIbcAck n AckError -> exec c o s = Ok s' tt ->
  exists p, x_inflight (st_world s) !! n = Some p /\ x_inflight (st_world s') = delete n (x_inflight (st_world s)) /\
    (forall k, retry_of s' k.1 k.2 = retry_of s k.1 k.2 + (if decide (k = (IBC, pk_chan p)) then yield_carried c (pk_chan p) p else 0)) /\
    forall k, external_of s' k.1 k.2 = external_of s k.1 k.2.
Proof.
  intros Hc Hr Ho E. destruct (winv_reachable _ _ Hc Hr) as [Hw _]. pose proof (ok_codec _ Hc) as Hco. pose proof (wf_packets _ _ Hw) as Hpk.
  assert (Hf : exists p, x_inflight (st_world s) !! n = Some p /\ failed_packet c (take_inflight s n) p s').
  { destruct Ho as [-> | ->]; [by apply (op_ibc_timeout_inv _ _ _ _ Hco Hpk)|].
    destruct (op_ibc_ack_inv _ _ _ _ _ Hco Hpk E) as (p & Hpp & [[? _]|[_ Hf]]); [done|eauto]. }
  destruct Hf as (p & Hp & (F1 & F2 & F3 & F4 & F5)%failed_retry). exists p. split; [done|]. split; [by rewrite F4|]. split.
  - intros [q id]. apply (F1 (q, id)).
  - intros [q id]. unfold external_of. by rewrite F3.
Qed.
Theorem packet_acked c s s' n : chain_ok c -> reachable c s -> exec c (OpIbcAck n AckResult) s = Ok s' tt ->
  exists p, x_inflight (st_world s) !! n = Some p /\ x_inflight (st_world s') = delete n (x_inflight (st_world s)) /\
    x_acked (st_world s') = x_acked (st_world s) ++ [p] /\ st_dollar s' = st_dollar s /\ st_bank s' = st_bank s.
Proof.
  intros Hc Hr E. destruct (winv_reachable _ _ Hc Hr) as [Hw _]. pose proof (ok_codec _ Hc) as Hco. pose proof (wf_packets _ _ Hw) as Hpk.
  destruct (op_ibc_ack_inv _ _ _ _ _ Hco Hpk E) as (p & Hpp & [[_ ->]|[? _]]); [|done]. exists p. auto.
Qed.

Theorem hyp_ledger c s tok : chain_ok c -> reachable c s ->
  hyp_retry c s tok + hyp_dispatched s tok <= hyp_external c s tok.
Proof. intros Hc Hr. destruct (einv_reachable _ _ Hc Hr) as (_ & I2 & _). specialize (I2 tok). unfold hyp_gap in I2. lia. Qed.
Theorem hyp_ledger_step c s s' o tok : chain_ok c -> reachable c s -> exec c o s = Ok s' tt -> careful c s o ->
  hyp_external c s' tok - hyp_external c s tok = hyp_retry c s' tok - hyp_retry c s tok + (hyp_dispatched s' tok - hyp_dispatched s tok).
Proof.
  intros Hc Hr E Hca. destruct (einv_reachable _ _ Hc Hr) as (_ & _ & I3).
  destruct (ext_op _ _ _ _ Hc (winv_reachable _ _ Hc Hr) I3 E) as [_ _ J3 _]. specialize (J3 Hca tok). unfold hyp_gap in J3. lia.
Qed.
Theorem hyp_ledger_ready c s0 ops tok : chain_ok c -> fresh c s0 -> Forall (routes_ready c) (history c s0 ops) ->
  let s := run c s0 ops in hyp_external c s tok = hyp_retry c s tok + hyp_dispatched s tok.
Proof.
  intros Hc Hf Hh. cbn zeta.
  enough (forall l s, winv c s -> enonneg s -> hyp_gap c tok s = 0 -> Forall (routes_ready c) (history c s l) -> hyp_gap c tok (run c s l) = 0) as HG.
  { specialize (HG ops s0 (winv_fresh _ _ Hf)). destruct (einv_fresh _ _ Hf) as (_ & _ & I3).
    assert (hyp_gap c tok s0 = 0) as I0.
    { destruct Hf. unfold hyp_gap, hyp_external, hyp_retry, hyp_dispatched. by rewrite fresh_ext, fresh_retry, fresh_dispatched. }
    specialize (HG I3 I0 Hh). unfold hyp_gap in HG. lia. }
  clear - Hc. induction l as [|o l IH]; intros s W Hn H0 Hh; [done|]. cbn in Hh. apply Forall_cons in Hh as [H1 H2]. rewrite run_cons.
  destruct (step_cases c s o) as [E|E]; [rewrite E in *; auto|].
  destruct (ext_op _ _ _ _ Hc W Hn E) as [_ _ J3 J4]. apply IH; auto; [by eapply winv_step|]. rewrite J3; [done|]. destruct o; cbn; auto.
Qed.

(** * The split of the hyperlane yield *)
Lemma list_sum_perm {A} (f : A -> Z) l l' : l ≡ₚ l' -> list_sum f l = list_sum f l'.
Proof. induction 1; unfold list_sum in *; cbn; lia. Qed.
Lemma sum_recipients s f : sum_routes s f = list_sum (fun ir => f ir.1) (recipients_of s HYPERLANE).
Proof.
  unfold sum_routes, recipients_of. rewrite (list_sum_perm _ _ _ (merge_sort_Permutation _ _)). unfold map_fold. cbn.
  induction (map_to_list (d_recipients (st_dollar s))) as [|[[p id] rc] l IH]; [done|].
  cbn. destruct (decide (p = HYPERLANE)); [|by rewrite IH]. unfold list_sum in *. cbn. by rewrite IH.
Qed.
(** What the hyperlane part of an index update reads. *)
Record hsame (s s' : state) : Prop := {
  hs_ext : forall id, ext_yield s' (HYPERLANE, id) = ext_yield s (HYPERLANE, id);
  hs_retry : forall id, retry s' (HYPERLANE, id) = retry s (HYPERLANE, id);
  hs_rec : d_recipients (st_dollar s') = d_recipients (st_dollar s);
  hs_tok : x_tokens (st_world s') = x_tokens (st_world s);
  hs_rout : x_routers (st_world s') = x_routers (st_world s);
  hs_disp : x_dispatched (st_world s') = x_dispatched (st_world s);
  hs_bal : bal s' WarpA = bal s WarpA;
  hs_prin : prin s' WarpA = prin s WarpA
}.
Lemma hsame_refl s : hsame s s.
Proof. by constructor. Qed.
Lemma hsame_trans s1 s2 s3 : hsame s1 s2 -> hsame s2 s3 -> hsame s1 s3.
Proof. intros [] []. constructor; intros; congruence. Qed.
Lemma hsame_eside s s' : eside s' = eside s -> bal s' WarpA = bal s WarpA -> prin s' WarpA = prin s WarpA -> hsame s s'.
Proof.
  intros E ? ?. destruct (eside_parts _ _ E) as (E1 & E2 & E3 & E4 & E5 & E6 & E7 & E8).
  constructor; auto; intros; [unfold ext_yield; by rewrite E1|unfold retry; by rewrite E2].
Qed.
Lemma hsame_pay s a y : a <> WarpA -> 0 <= y -> hsame s (pay s a y).
Proof.
  intros Ha Hy. apply hsame_eside; [apply eside_pay| |].
  - rewrite bal_pay' by done. unfold ind. rewrite (decide_False (P := WarpA = a)), (decide_False (P := WarpA = YieldA)) by (done || congruence). lia.
  - unfold pay. destruct (0 <? y); [apply prin_pay|done].
Qed.
Lemma season_hsame c i s : good_collector s -> (v_ended (st_vaults s) = true -> v_collector (st_vaults s) <> WarpA) ->
  wp (if v_ended (st_vaults s) then vaults_yield_season_two c else vaults_yield_season_one c i) s
    (fun s' _ => hsame s s' /\ current_index s' = current_index s) top2.
Proof.
  intros [Hg1 Hg2] Hcw.
  assert (HI : forall s a y, current_index (pay s a y) = current_index s) by (intros; unfold pay; by destruct (0 <? y)).
  destruct (v_ended (st_vaults s)).
  - unfold vaults_yield_season_two. apply wp_bind, claim_module_spec; [|done]. intros _. pose proof (yield_of_nonneg s StakedA) as Hy.
    set (y := yield_of s StakedA) in *.
    destruct (0 <? y) eqn:Ey; cbn [negb]; [|apply wp_ret; split; [by apply hsame_pay|apply HI]].
    apply wp_bind, wp_gets, wp_bind, new_coins_spec. intros _. rewrite pay_vaults. apply Z.ltb_lt in Ey.
    apply send_plain_spec; try done. intros _. split.
    + eapply hsame_trans; [by apply (hsame_pay s StakedA y)|]. apply hsame_eside; [apply eside_xfer| |].
      * rewrite bal_xfer by done. unfold ind. rewrite !decide_False; [lia|done|]. intros E. by apply Hcw.
      * unfold xfer. rewrite (proj2 (Z.ltb_lt 0 y)) by done. rewrite prin_send by done. unfold ind. rewrite !decide_False; [lia| |done].
        intros E. by apply Hcw.
    + rewrite <- (HI s StakedA y). unfold xfer. by destruct (0 <? y).
  - unfold vaults_yield_season_one. apply wp_bind, claim_module_spec; [|done]. intros _. pose proof (yield_of_nonneg s FlexibleA) as Hy. set (y := yield_of s FlexibleA) in *.
    assert (H1 := hsame_pay s FlexibleA y ltac:(done) Hy).
    apply wp_bind, (claim_staked_spec c _ _ _ _ eq_refl).
    + intros _. apply wp_bind, wp_gets, wp_bind, wp_lift; [|done]. intros z _. apply wp_modify. split; [|apply HI].
      eapply hsame_trans; [exact H1|]. by apply hsame_eside.
    + intros yp [Hp _] _. apply wp_bind, wp_gets, wp_bind, wp_lift; [|done]. intros z _. apply wp_modify. split; [|apply HI].
      eapply hsame_trans; [exact H1|]. set (s1 := pay s FlexibleA y) in *. pose proof (hsame_pay s1 FlexibleA (yield_of s1 StakedA) ltac:(done) ltac:(lia)) as H2.
      unfold pay in H2. rewrite (proj2 (Z.ltb_lt 0 _)) in H2 by done. eapply hsame_trans; [exact H2|].
      apply hsame_eside; [done|done|]. etransitivity; [apply (prin_shift _ yp WarpA)|]. unfold ind. rewrite !decide_False by done. lia.
    + done.
Qed.
Lemma ibc_hsame c x l : forall s, enonneg s -> codec_ok c ->
  wp (for_each (claim_ibc_one c x) l) s (fun s' _ => hsame s s' /\ enonneg s' /\ current_index s' = current_index s) top2.
Proof.
  induction l as [|[chan rc] l IH]; intros s Hn Hco; [by apply wp_ret; split; [apply hsame_refl|]|]. cbn. apply wp_bind.
  apply (wp_mono _ _ (fun s' _ => (hsame s s' /\ current_index s' = current_index s) /\ ext_rel True c s s') _ top2); [| |done].
  2:{ intros s1 [] [[H1 H2] H3]. eapply wp_mono; [apply IH; [apply H3|done]| |done]. cbn. intros s2 [] (H4 & H5 & H6).
      split; [by eapply hsame_trans|]. split; [done|congruence]. }
  enough (W1 : wp (claim_ibc_one c x (chan, rc)) s (fun s' _ => hsame s s' /\ current_index s' = current_index s) top2).
  { eapply wp_mono; [apply (wp_conj _ _ _ _ _ _ W1 (claim_ibc_one_rel c x (chan, rc) s Hco Hn))| |done]. done. }
  assert (HS : forall s0 z, hsame s0 (send_result s0 (AEscrow transfer_port chan) (AEscrow transfer_port chan) z)).
  { intros s0 z. apply hsame_eside; [done|rewrite bal_send; lia|]. rewrite prin_send by done. lia. }
  assert (HD : forall s0, enonneg s0 -> hsame s0 (del_retry s0 (IBC, chan)) /\ current_index (del_retry s0 (IBC, chan)) = current_index s0).
  { intros s0 Hn0. split; [|unfold del_retry; by destruct (0 <? _)]. destruct (del_frame s0 (IBC, chan)) as (E1 & E2 & E3).
    constructor; try (by rewrite ?E3); try done.
    - intros id. unfold ext_yield. by rewrite E1.
    - intros id. by rewrite retry_del, decide_False by done.
    - unfold del_retry. by destruct (0 <? _).
    - unfold del_retry. by destruct (0 <? _). }
  assert (HA : forall s0 y, hsame s0 (add_ext s0 (IBC, chan) y)).
  { intros s0 y. constructor; try done. intros id. unfold ext_yield. cbn. rewrite mget_addz, decide_False by done. lia. }
  assert (HR : forall s0 y, hsame s0 (add_retry s0 (IBC, chan) y)).
  { intros s0 y. constructor; try done. intros id. unfold retry. cbn. rewrite mget_addz, decide_False by done. lia. }
  assert (HP : forall s0 p, hsame s0 (push s0 p)) by (intros; by constructor).
  set (esc := AEscrow transfer_port chan) in *.
  assert (H1 : hsame s (pay s esc (yield_of s esc))) by (apply hsame_pay; [done|apply yield_of_nonneg]).
  assert (I1 : current_index (pay s esc (yield_of s esc)) = current_index s) by (unfold pay; by destruct (0 <? _)).
  assert (Hn1 : enonneg (pay s esc (yield_of s esc))) by (eapply (er_pos True c s), same_rel; [apply eside_pay|done]).
  destruct (HD _ Hn1) as [H2 I2].
  assert (H02 := hsame_trans _ _ _ H1 H2).
  apply (claim_ibc_one_spec c x chan rc s _ _ _ _ eq_refl eq_refl); cbn zeta; fold esc; [| | |done].
  - intros _ _. split; [done|congruence].
  - intros _ _ _ _. split; [|etransitivity; [exact I2|exact I1]].
    eapply hsame_trans; [|apply HA]. eapply hsame_trans; [|apply HP]. eapply hsame_trans; [|apply HS]. done.
  - intros s3 _ _ H3. assert (hsame s s3 /\ current_index s3 = current_index s) as [H4 I4].
    { destruct H3 as [->|[_ ->]]; [split; [done|congruence]|]. split; [by eapply hsame_trans; [|apply HS]|etransitivity; [exact I2|exact I1]]. }
    split; [|exact I4]. eapply hsame_trans; [|apply HA]. eapply hsame_trans; [|apply HR]. done.
Qed.
Lemma hyp_bal c x total y l : forall s, wp (for_each (claim_hyp_one c x total y) l) s (fun s' _ => bal s' WarpA = bal s WarpA) top2.
Proof.
  assert (HS : forall s x, bal (send_result s WarpA WarpA x) WarpA = bal s WarpA) by (intros; rewrite bal_send; lia).
  assert (HD : forall s k, bal (del_retry s k) WarpA = bal s WarpA) by (intros; unfold del_retry; by destruct (0 <? _)).
  induction l as [|h l IH]; intros s; [done|]. cbn. apply wp_bind.
  apply (wp_mono _ _ (fun s' _ => bal s' WarpA = bal s WarpA) _ top2); [| |done].
  2:{ intros s1 [] E. eapply wp_mono; [apply IH| |done]. cbn. intros ? ? ->. done. }
  apply claim_hyp_one_spec. intros q _. split; [intros _; by rewrite HD|]. split; [|split; [|done]].
  - intros. change (bal (add_ext (dispatch (set_token ?z _ _) _) _ _) WarpA) with (bal z WarpA). by rewrite HS, HD.
  - intros s3 _ H3. change (bal (add_ext (add_retry ?z _ _) _ _) WarpA) with (bal z WarpA). destruct H3 as [->|[_ ->]]; [by rewrite HD|].
    change (bal (set_token ?z _ _) WarpA) with (bal z WarpA). by rewrite HS, HD.
Qed.

(** What a route receives. *)
Definition route_outcome (c : config) (s s' : state) (new : list hypmsg) (id rc : string) (q : Z) : Prop :=
  external_of s' HYPERLANE id = external_of s HYPERLANE id + q /\
  (retry_of s' HYPERLANE id = retry_of s HYPERLANE id + q \/
   retry_of s' HYPERLANE id = 0 /\ exists h d r, c_hex c id = Some h /\ c_hex c rc = Some r /\
     x_routers (st_world s) !! internal_id h = Some [d] /\
     mk_hypmsg WarpA (internal_id h) d r (retry_of s HYPERLANE id + q) ∈ new).
Lemma routes_collateral c s l rs : Forall2 (route_of c s) l rs -> list_sum hr_collateral rs = list_sum (fun ir => collateral_of c s ir.1) l.
Proof.
  induction 1 as [|[id rc] h l rs (H1 & H2 & H3 & b & H4 & H5) _ IH]; [done|]. unfold list_sum in *. cbn in *. rewrite IH. f_equal.
  unfold collateral_of. rewrite <- H1, H4. change (be_decode (drop 24 b)) with (internal_id b). rewrite <- H5, H3. done.
Qed.
Lemma shares_bound c s y l total : 0 < total -> 0 <= y -> (forall ir, ir ∈ l -> 0 <= collateral_of c s ir.1) ->
  list_sum (fun ir : string * string => collateral_of c s ir.1 * 10 ^ 18 / total * y / 10 ^ 18) l * 10 ^ 18 * total <= list_sum (fun ir => collateral_of c s ir.1) l * 10 ^ 18 * y.
Proof.
  intros Ht Hy. induction l as [|ir l IH]; intros Hl; [unfold list_sum; cbn; lia|].
  assert (Hl' : forall ir0, ir0 ∈ l -> 0 <= collateral_of c s ir0.1) by (intros; apply Hl; by right).
  specialize (IH Hl'). specialize (Hl ir ltac:(by left)). unfold list_sum in *. cbn [foldr].
  set (A := foldr _ 0 l) in *. set (B := foldr (fun a acc => collateral_of c s a.1 + acc) 0 l) in *. set (e := 10 ^ 18) in *. assert (0 < e) by done.
  set (k := collateral_of c s ir.1) in *. clearbody A B e k. clear - IH Hl H Ht Hy.
  pose proof (Z.mul_div_le (k * e) total Ht) as D1. set (u := k * e / total) in *. pose proof (Z.mul_div_le (u * y) e H) as D2. set (v := u * y / e) in *.
  clearbody u v. nia.
Qed.
Lemma hyp_split_update c x i s : enonneg s -> (forall a, 0 <= bal s a) -> good_collector s -> codec_ok c ->
  (v_ended (st_vaults s) = true -> v_collector (st_vaults s) <> WarpA) ->
  wp (update_index c x i) s (fun s' _ => bal s' WarpA = bal s WarpA + warp_yield s i /\
    exists new, x_dispatched (st_world s') = x_dispatched (st_world s) ++ new /\
    forall id rc, d_recipients (st_dollar s) !! (HYPERLANE, id) = Some rc ->
      route_outcome c s s' new id rc (route_share c s (warp_yield s i) id)) top2.
Proof.
  intros Hn Hb [Hg1 Hg2] Hco Hcw. unfold update_index, get_index. apply wp_bind, wp_gets.
  destruct (i <=? current_index s); [done|]. 
  apply wp_bind, (accrue_spec i s _ _ _ eq_refl); [apply Hb| |done].
  intros Hn0. set (n := present _ _ - _) in *. set (s1 := accrued s i n n).
  assert (Hv : st_vaults s1 = st_vaults s) by (subst s1; unfold accrued; by destruct (0 <? n)).
  assert (H1 : hsame s s1).
  { apply hsame_eside; [apply eside_accrued| |apply prin_accrued]. subst s1. rewrite bal_accrued by done. unfold ind. rewrite decide_False by done. lia. }
  assert (Hi1 : current_index s1 = i) by (subst s1; unfold accrued; by destruct (0 <? n)).
  assert (Hn1 : enonneg s1) by (eapply (er_pos True c s), same_rel; [apply eside_accrued|done]).
  apply wp_bind, wp_gets, wp_bind.
  assert (W1 := season_hsame c i s1 ltac:(split; by rewrite Hv) ltac:(rewrite Hv; done)).
  assert (W2 := season_eside c i s1 ltac:(split; by rewrite Hv)).
  eapply wp_mono; [apply (wp_conj _ _ _ _ _ _ W1 W2)| |done]. cbn beta. intros s2 [] [[H2 Hi2] E2].
  assert (Hn2 : enonneg s2) by (eapply (er_pos True c s1), same_rel; done).
  apply wp_bind. unfold claim_external_ibc. apply wp_bind, wp_gets. eapply wp_mono; [by apply (ibc_hsame c x _ s2)| |done].
  cbn beta. intros s3 [] (H3 & Hn3 & Hi3). assert (H03 : hsame s s3) by (eapply hsame_trans; [eapply hsame_trans; [exact H1|exact H2]|exact H3]).
  assert (Hi : current_index s3 = i) by congruence. clear - Hn3 H03 Hi Hb Hn.
  unfold claim_external_hyp. apply wp_bind, wp_gets, wp_bind, claim_module_exact; [rewrite (hs_bal _ _ H03); apply Hb|].
  assert (claimable s3 WarpA = warp_yield s i) as ->.
  { unfold claimable, warp_yield. by rewrite (hs_bal _ _ H03), (hs_prin _ _ H03), Hi. }
  intros _. set (y := warp_yield s i). assert (Hy : 0 <= y) by (subst y; unfold warp_yield; case_match; lia).
  set (s4 := pay s3 WarpA y). assert (Es4 : eside s4 = eside s3) by apply eside_pay. destruct (eside_parts _ _ Es4) as (P1 & P2 & P3 & P4 & P5 & P6 & P7 & P8).
  assert (B4 : bal s4 WarpA = bal s WarpA + y).
  { subst s4. rewrite bal_pay' by done. unfold ind. rewrite decide_True, decide_False by done. rewrite (hs_bal _ _ H03). lia. }
  assert (D4 : x_dispatched (st_world s4) = x_dispatched (st_world s)) by (rewrite P8; apply H03).
  assert (EE : forall id, ext_yield s4 (HYPERLANE, id) = ext_yield s (HYPERLANE, id)) by (intros id; rewrite <- (hs_ext _ _ H03); unfold ext_yield; by rewrite P1).
  assert (ER : forall id, retry s4 (HYPERLANE, id) = retry s (HYPERLANE, id)) by (intros id; rewrite <- (hs_retry _ _ H03); unfold retry; by rewrite P2).
  assert (H0 : forall id rc new, route_share c s y id = 0 -> route_outcome c s s4 new id rc (route_share c s y id)).
  { intros id rc new ->. split; [|left]; rewrite Z.add_0_r; [apply EE|apply ER]. }
  destruct (Z.ltb_spec 0 y); cbn [negb].
  2:{ apply wp_ret. split; [done|]. exists []. split; [by rewrite app_nil_r|]. intros id rc _. apply H0. assert (y = 0) as -> by lia.
      unfold route_share. by rewrite Z.mul_0_r; destruct (_ <=? 0). }
  apply wp_bind. eapply wp_mono; [apply collect_routes_ok| |done]; cbn beta.
  intros s5 [tot rs] (-> & R1 & R2). cbn [fst snd] in *.
  assert (Hrec : recipients_of s3 HYPERLANE = recipients_of s HYPERLANE) by (unfold recipients_of; by rewrite (hs_rec _ _ H03)). rewrite Hrec in *.
  assert (Htot : tot = sum_routes s (collateral_of c s)).
  { rewrite R2, (routes_collateral _ _ _ _ R1), sum_recipients. rewrite Z.add_0_l. unfold list_sum. f_equal. unfold collateral_of. 
    by rewrite P6, (hs_tok _ _ H03). }
  destruct (Z.ltb_spec 0 tot); cbn [negb].
  2:{ apply wp_ret. split; [done|]. exists []. split; [by rewrite app_nil_r|]. intros id rc _. apply H0.
      unfold route_share. rewrite <- Htot. by rewrite (proj2 (Z.leb_le _ _)) by done. }
  assert (Hn4 : enonneg s4) by (eapply (er_pos True c s3), same_rel; done).
  destruct (routes_proper c s4 (recipients_of s HYPERLANE) rs Hn4) with (2 := R1) as [R3 R4].
  { intros id rc Hin%elem_recipients. by rewrite P3, (hs_rec _ _ H03). }
  assert (W1 := hyp_loop c x tot y rs ltac:(done) ltac:(done) s4 Hn4 R3 ltac:(rewrite R4; apply nodup_recipients)).
  eapply wp_mono; [apply (wp_conj _ _ _ _ _ _ W1 (hyp_bal c x tot y rs s4))| |done]. cbn beta.
  intros s6 [] [[_ [_ (D & D1 & D2)]] B6]. split; [congruence|]. exists D. split; [congruence|].
  intros id rc Hid. apply elem_recipients in Hid. apply elem_of_list_lookup in Hid as [j Hj].
  destruct (Forall2_lookup_l _ _ _ _ _ R1 Hj) as (h & Hh & (F1 & F2 & F3 & b & F4 & F5)). cbn in F1, F2. subst id rc.
  assert (Hin : h ∈ rs) by (by eapply elem_of_list_lookup_2).
  destruct (D2 h Hin) as (q & Q1 & Q2 & Q3).
  apply portion_exact in Q1; [|eapply (proj2 Hn4); exact F3|done|lia].
  assert (Hq : q = route_share c s y (hr_id h)).
  { unfold route_share. rewrite <- Htot. rewrite (proj2 (Z.leb_gt _ _)) by lia. rewrite Q1. unfold collateral_of. rewrite F4. change (be_decode (drop 24 b)) with (internal_id b). rewrite <- F5.
    rewrite P6, (hs_tok _ _ H03) in F3. rewrite F3. done. }
  rewrite <- Hq.
  rewrite EE in Q2. rewrite ER in Q3. split; [exact Q2|].
  destruct Q3 as [Q3|(Q3 & d & rc & Q4 & Q5 & Q6)]; [left; exact Q3|right]. split; [exact Q3|].
  exists b, d, rc. rewrite <- F5. split; [done|]. split; [done|]. split; [by rewrite <- (hs_rout _ _ H03), <- P7|exact Q6].
Qed.
Theorem hyp_split c s s' x bz i : chain_ok c -> reachable c s ->
  (v_ended (st_vaults s) = true -> v_collector (st_vaults s) <> WarpA) ->
  carried_index c bz = Some i -> exec c (OpDeliver x bz) s = Ok s' tt ->
  bal s' WarpA = bal s WarpA + warp_yield s i /\
  sum_routes s (route_share c s (warp_yield s i)) <= warp_yield s i /\
  exists new, x_dispatched (st_world s') = x_dispatched (st_world s) ++ new /\
  forall id rc, d_recipients (st_dollar s) !! (HYPERLANE, id) = Some rc ->
    route_outcome c s s' new id rc (route_share c s (warp_yield s i) id).
Proof.
  intros Hc Hr Hcw Hi E. destruct (winv_reachable _ _ Hc Hr) as [Hw _]. destruct (einv_reachable _ _ Hc Hr) as (_ & _ & Hn).
  destruct (solid_reachable _ _ Hc Hr) as [_ Hb].
  assert (Hsum : sum_routes s (route_share c s (warp_yield s i)) <= warp_yield s i).
  { assert (Hy : 0 <= warp_yield s i) by (unfold warp_yield; case_match; lia). set (y := warp_yield s i) in *. clearbody y.
    rewrite sum_recipients. unfold route_share. destruct (Z.leb_spec (sum_routes s (collateral_of c s)) 0).
    - induction (recipients_of s HYPERLANE) as [|ir l IH]; unfold list_sum in *; cbn; lia.
    - pose proof (shares_bound c s y (recipients_of s HYPERLANE) (sum_routes s (collateral_of c s)) ltac:(done) Hy) as HB.
      rewrite <- sum_recipients in HB. set (S := list_sum _ _) in *. set (T := sum_routes _ _) in *. clearbody S T.
      assert (S * 10 ^ 18 * T <= T * 10 ^ 18 * y); [|nia]. apply HB. intros [id rc] _. cbn. unfold collateral_of.
      destruct (c_hex c id) as [h|]; [|done]. destruct (x_tokens (st_world s) !! be_decode (drop 24 h)) eqn:Et; cbn; [|done]. by eapply (proj2 Hn). }
  change (deliver c x bz s = Ok s' tt) in E. destruct (index_calls c x bz s s' i Hi E) as [d E'].
  destruct (wp_ok _ _ _ _ _ _ (hyp_split_update c x i (consume s d) Hn Hb (wf_coll _ _ Hw) (ok_codec _ Hc) Hcw) E') as (G1 & new & G2 & G3).
  split; [exact G1|]. split; [exact Hsum|]. exists new. split; [exact G2|exact G3].
Qed.

(** * Packets and records only for configured recipients *)
Definition new_keys {A} (s : state) (m m' : gmap (Z * string) A) : Prop :=
  forall k, is_Some (m' !! k) -> is_Some (m !! k) \/ is_Some (d_recipients (st_dollar s) !! k).
Record pk_rel (c : config) (s s' : state) : Prop := {
  pr_rec : d_recipients (st_dollar s') = d_recipients (st_dollar s);
  pr_new : forall p, p ∈ x_inflight (st_world s') -> p ∈ x_inflight (st_world s) \/ sent_ok c s p;
  pr_ext : new_keys s (d_ext_yield (st_dollar s)) (d_ext_yield (st_dollar s'));
  pr_retry : new_keys s (d_retry (st_dollar s)) (d_retry (st_dollar s'))
}.
Lemma new_keys_refl {A} (s : state) (m : gmap (Z * string) A) : new_keys s m m.
Proof. intros k. auto. Qed.
Lemma new_keys_addz (s : state) m m' k z : new_keys s m m' -> is_Some (d_recipients (st_dollar s) !! k) -> new_keys s m (addz k z m').
Proof. intros H Hk j. unfold addz. intros [<-|[_ ?]]%lookup_insert_is_Some; auto. Qed.
Lemma new_keys_delete {A} (s : state) (m m' : gmap (Z * string) A) k : new_keys s m m' -> new_keys s m (delete k m').
Proof. intros H j. intros [_ ?]%lookup_delete_is_Some. auto. Qed.
Lemma new_keys_del s k : new_keys s (d_retry (st_dollar s)) (d_retry (st_dollar (del_retry s k))).
Proof. unfold del_retry. destruct (0 <? _); [|apply new_keys_refl]. cbn. apply new_keys_delete, new_keys_refl. Qed.
Lemma pk_same' c s s' : d_recipients (st_dollar s') = d_recipients (st_dollar s) -> x_inflight (st_world s') = x_inflight (st_world s) ->
  new_keys s (d_ext_yield (st_dollar s)) (d_ext_yield (st_dollar s')) -> new_keys s (d_retry (st_dollar s)) (d_retry (st_dollar s')) -> pk_rel c s s'.
Proof. intros ? E ? ?. split; [done| |done|done]. intros p. rewrite E. auto. Qed.
Lemma pk_same c s s' : d_recipients (st_dollar s') = d_recipients (st_dollar s) -> x_inflight (st_world s') = x_inflight (st_world s) ->
  d_ext_yield (st_dollar s') = d_ext_yield (st_dollar s) -> d_retry (st_dollar s') = d_retry (st_dollar s) -> pk_rel c s s'.
Proof. intros ? ? E1 E2. apply pk_same'; [done|done|rewrite E1|rewrite E2]; apply new_keys_refl. Qed.
Lemma pk_eside c s s' : eside s' = eside s -> pk_rel c s s'.
Proof. intros (E3 & E4 & E1 & E2 & _)%eside_parts. by apply pk_same. Qed.
Lemma pk_trans c s1 s2 s3 : pk_rel c s1 s2 -> pk_rel c s2 s3 -> pk_rel c s1 s3.
Proof.
  intros [A1 A2 A3 A4] [B1 B2 B3 B4]. split; [congruence| | |].
  - intros p [H|H]%B2; [auto|]. right. intros Hu. rewrite <- A1. by apply H.
  - intros k [H|H]%B3; [auto|]. right. by rewrite <- A1.
  - intros k [H|H]%B4; [auto|]. right. by rewrite <- A1.
Qed.
Lemma ibc_pk c x l : forall s, (forall ch rc, (ch, rc) ∈ l -> is_Some (d_recipients (st_dollar s) !! (IBC, ch))) ->
  wp (for_each (claim_ibc_one c x) l) s (fun s' _ => pk_rel c s s') (fun s' _ => pk_rel c s s').
Proof.
  induction l as [|[chan rc] l IH]; intros s Hl; [by apply wp_ret, pk_eside|]. cbn. apply wp_bind.
  apply (wp_mono _ _ (fun s' _ => pk_rel c s s') _ (fun s' _ => pk_rel c s s')); [| |done].
  2:{ intros s1 [] R. eapply wp_mono; [apply IH| |]; cbn beta.
      - intros ch rc' Hin. rewrite (pr_rec _ _ _ R). eapply Hl. by right.
      - intros s2 [] R2. by eapply pk_trans.
      - intros s2 e R2. by eapply pk_trans. }
  assert (Hs2 : forall y, d_recipients (st_dollar (del_retry (pay s (AEscrow transfer_port chan) y) (IBC, chan))) = d_recipients (st_dollar s) /\
    x_inflight (st_world (del_retry (pay s (AEscrow transfer_port chan) y) (IBC, chan))) = x_inflight (st_world s) /\
    d_ext_yield (st_dollar (del_retry (pay s (AEscrow transfer_port chan) y) (IBC, chan))) = d_ext_yield (st_dollar s) /\
    new_keys s (d_retry (st_dollar s)) (d_retry (st_dollar (del_retry (pay s (AEscrow transfer_port chan) y) (IBC, chan))))).
  { intros y. destruct (del_frame (pay s (AEscrow transfer_port chan) y) (IBC, chan)) as (-> & -> & ->).
    destruct (eside_parts _ _ (eside_pay s (AEscrow transfer_port chan) y)) as (-> & E2 & E3 & -> & _). split; [done|]. split; [done|]. split; [done|].
    pose proof (new_keys_del (pay s (AEscrow transfer_port chan) y) (IBC, chan)) as N. rewrite E2 in N. intros k Hk. destruct (N k Hk); [auto|]. right. by rewrite <- E3. }
  assert (Hrc : is_Some (d_recipients (st_dollar s) !! (IBC, chan))) by (eapply Hl; by left).
  apply (claim_ibc_one_spec c x chan rc s _ _ _ _ eq_refl eq_refl); cbn zeta; set (y := yield_of s _) in *; destruct (Hs2 y) as (F1 & F2 & F3 & F4).
  - intros _ _. apply pk_same'; auto. rewrite F3. apply new_keys_refl.
  - intros _ _ _ _. split; [exact F1| |cbn; rewrite F3; apply new_keys_addz; [apply new_keys_refl|done]|exact F4]. intros p. cbn. rewrite F2. intros [?|?]%elem_of_app; [auto|]. right. intros _.
    assert (p = yield_packet c chan rc (y + retry s (IBC, chan))) as -> by (by apply elem_of_list_singleton).
    exact Hrc.
  - intros s3 _ _ H3. apply pk_same'; destruct H3 as [->|[_ ->]]; try done; cbn; try rewrite F3; (apply new_keys_addz; [|done]); (apply new_keys_refl || exact F4).
  - intros. by apply pk_eside.
Qed.
Lemma hyp_pk c x total y l : forall s, (forall h, h ∈ l -> is_Some (d_recipients (st_dollar s) !! (HYPERLANE, hr_id h))) ->
  wp (for_each (claim_hyp_one c x total y) l) s (fun s' _ => pk_rel c s s') (fun s' _ => pk_rel c s s').
Proof.
  induction l as [|h l IH]; intros s Hl; [by apply wp_ret, pk_eside|]. cbn. apply wp_bind.
  apply (wp_mono _ _ (fun s' _ => pk_rel c s s') _ (fun s' _ => pk_rel c s s')); [| |done].
  2:{ intros s1 [] R. eapply wp_mono; [apply IH| |]; cbn beta; [|intros s2 ? R2; by eapply pk_trans..].
      intros h' Hh. rewrite (pr_rec _ _ _ R). apply Hl. by right. }
  assert (Hrc : is_Some (d_recipients (st_dollar s) !! (HYPERLANE, hr_id h))) by (apply Hl; by left).
  pose proof (new_keys_del s (HYPERLANE, hr_id h)) as F3.
  destruct (del_frame s (HYPERLANE, hr_id h)) as (F0 & F1 & F2). apply (f_equal x_inflight) in F2.
  apply claim_hyp_one_spec. intros q _.
  assert (R0 : pk_rel c s (del_retry s (HYPERLANE, hr_id h))) by (apply pk_same'; auto; rewrite F0; apply new_keys_refl).
  split; [done|]. split; [|split].
  - intros. apply pk_same'; try done. cbn. rewrite F0. apply new_keys_addz; [apply new_keys_refl|done].
  - intros s3 _ H3. apply pk_same'; destruct H3 as [->|[_ ->]]; try done; cbn; try rewrite F0; (apply new_keys_addz; [|done]); (apply new_keys_refl || exact F3).
  - done.
Qed.
Lemma update_pk c x i s : good_collector s -> 0 <= bal s ModuleA ->
  wp (update_index c x i) s (fun s' _ => pk_rel c s s') (fun s' _ => pk_rel c s s').
Proof.
  intros [Hg1 Hg2] Hb. unfold update_index, get_index. apply wp_bind, wp_gets.
  destruct (i <=? current_index s); [by apply wp_fail, pk_eside|].
  apply wp_bind, (accrue_spec i s _ _ _ eq_refl); [done| |].
  2:{ intros _ _. apply pk_eside, eside_accrued. }
  intros _. set (n := present _ _ - _). set (s1 := accrued s i n n).
  assert (Hv : st_vaults s1 = st_vaults s) by (subst s1; unfold accrued; by destruct (0 <? n)).
  assert (E1 : eside s1 = eside s) by apply eside_accrued.
  apply wp_bind, wp_gets, wp_bind. eapply wp_mono; [apply (season_eside c i s1); split; by rewrite Hv| |]; cbn beta.
  2:{ intros s2 e E2. apply pk_eside. congruence. }
  intros s2 [] E2. assert (R2 : pk_rel c s s2) by (apply pk_eside; congruence).
  apply wp_bind. unfold claim_external_ibc. apply wp_bind, wp_gets.
  eapply wp_mono; [apply (ibc_pk c x _ s2)| |]; cbn beta.
  { intros ch rc Hin%elem_recipients. eauto. }
  2:{ intros s3 e R3. by eapply pk_trans. }
  intros s3 [] R3. assert (R03 : pk_rel c s s3) by (by eapply pk_trans).
  unfold claim_external_hyp. apply wp_bind, wp_gets, wp_bind, claim_module_spec; [|done].
  intros _. assert (R04 : pk_rel c s (pay s3 WarpA (yield_of s3 WarpA))) by (eapply pk_trans; [exact R03|apply pk_eside, eside_pay]).
  destruct (0 <? yield_of s3 WarpA); cbn [negb]; [|by apply wp_ret].
  apply wp_bind. eapply wp_mono; [apply collect_routes_ok| |]; cbn beta; [|intros ? ? ->; done].
  intros s5 [tot rs] (-> & HR & _). cbn [fst snd] in *. destruct (0 <? tot); cbn [negb]; [|by apply wp_ret].
  eapply wp_mono; [apply hyp_pk| |]; cbn beta; [|intros s6 ? R6; by eapply pk_trans..].
  intros h Hh. apply elem_of_list_lookup in Hh as [j Hj]. destruct (Forall2_lookup_r _ _ _ _ _ HR Hj) as ([id rc] & Hi & (-> & _)).
  apply elem_of_list_lookup_2, elem_recipients in Hi. cbn. rewrite (pr_rec _ _ _ R04). rewrite (pr_rec _ _ _ R03) in Hi. eauto.
Qed.
Lemma deliver_pk c x bz s s' : chain_ok c -> wfs c s -> deliver c x bz s = Ok s' tt -> pk_rel c s s'.
Proof.
  intros Hc Hw H. destruct (deliver_calls _ _ _ _ _ H) as (v & pl & Ha & Hh). set (s0 := consume s (va_digest v)) in *.
  assert (Hg0 : good_collector s0) by apply Hw. assert (Hb0 : 0 <= bal s0 ModuleA) by (change (bal s0 ModuleA) with (bal s ModuleA); rewrite (wf_module _ _ Hw); lia).
  pose proof (ok_blocked _ Hc) as Hbl. assert (HG : pk_rel c s0 s'); [|by destruct HG; constructor].
  revert Hh. apply (wp_ok _ _ (fun s' _ => pk_rel c s0 s') top2).
  unfold handle_payload. apply wp_bind, wp_lift; [|done]. intros ty _. destruct ty.
  - by apply wp_ret, pk_eside.
  - apply wp_bind, wp_lift; [|done]. intros t Ht. destruct (negb _); [done|]. destruct (negb _); [done|].
    unfold mint. apply wp_bind.
    assert (W1 : wp (try (update_index c x (tk_index t))) s0 (fun s1 _ => pk_rel c s0 s1) top2).
    { apply wp_try. eapply wp_mono; [apply (update_pk c x (tk_index t) s0 Hg0 Hb0)| |]; done. }
    assert (W2 : wp (try (update_index c x (tk_index t))) s0 (fun s1 _ => index_tried c (tk_index t) s0 s1) top2).
    { apply update_index_tried; auto. }
    eapply wp_mono; [apply (wp_conj _ _ _ _ _ _ W1 W2)| |done]. intros s1 b [R1 T1].
    destruct (index_tried_frame _ _ _ _ T1 Hg0) as (_ & Hb1 & _).
    apply issue_spec; [lia|done|]. intros _ _ _. eapply pk_trans; [exact R1|]. apply pk_eside. unfold issued. by destruct (0 <? tk_amount t).
  - apply wp_bind, wp_lift; [|done]. intros [i d] Hd. destruct (negb _); [done|].
    eapply wp_mono; [apply (update_pk c x i s0 Hg0 Hb0)| |]; done.
Qed.
(** Recipients are never removed; new packets and records respect them. *)
Record configured (c : config) (s : state) : Prop := {
  cf_sent : forall p, p ∈ x_inflight (st_world s) -> sent_ok c s p;
  cf_ext : forall k, is_Some (d_ext_yield (st_dollar s) !! k) -> is_Some (d_recipients (st_dollar s) !! k);
  cf_retry : forall k, is_Some (d_retry (st_dollar s) !! k) -> is_Some (d_recipients (st_dollar s) !! k)
}.
Lemma configured_rel c s s' : pk_rel c s s' -> configured c s -> configured c s'.
Proof.
  intros [R1 R2 R3 R4] [C1 C2 C3]. constructor.
  - intros p [H|H]%R2; unfold sent_ok; rewrite R1; [by apply C1|done].
  - intros k [H|H]%R3; rewrite R1; auto.
  - intros k [H|H]%R4; rewrite R1; auto.
Qed.
Lemma configured_op c o s s' : chain_ok c -> winv c s -> exec c o s = Ok s' tt -> configured c s -> configured c s'.
Proof.
  intros Hc [Hw Hp] H HI. pose proof (ok_blocked _ Hc) as Hbl. pose proof (ok_codec _ Hc) as Hco. pose proof (wf_packets _ _ Hw) as Hpk.
  assert (HR : pk_rel c s s' -> configured c s') by (intros R; by eapply configured_rel).
  destruct (administrative o) eqn:Ha.
  { apply admin_inv in H; [|done]. destruct o; try discriminate; cbn in H; decompose [and] H; subst s'; try (apply HR, pk_same; done).
    - destruct HI as [C1 C2 C3]. constructor; [intros q Hq; unfold sent_ok|..]; cbn; intros; apply lookup_insert_is_Some'; right; [by apply C1|auto|auto].
    - apply HR. constructor; [done| |apply new_keys_refl..]. cbn. intros q [?| ->%elem_of_list_singleton]%elem_of_app; [auto|]. right. intros Hu. congruence. }
  assert (HX : forall n p, p ∈ delete n (x_inflight (st_world s)) -> p ∈ x_inflight (st_world s)).
  { intros n p Hin. eapply elem_of_submseteq; [exact Hin|]. apply sublist_submseteq, sublist_delete. }
  assert (HD : forall n p, x_inflight (st_world s) !! n = Some p -> failed_packet c (take_inflight s n) p s' -> pk_rel c s s').
  { intros n p Hin%elem_of_list_lookup_2 Hf. unfold failed_packet in Hf. destruct (is_usdn c p) eqn:Eu.
    - destruct Hf as (a & z & rc & _ & _ & _ & ->). constructor.
      + by destruct (is_yield_packet c p).
      + intros q. destruct (is_yield_packet c p); cbn; intros ?%HX; auto.
      + destruct (is_yield_packet c p); apply new_keys_refl.
      + destruct (is_yield_packet c p); [|apply new_keys_refl]. cbn. apply new_keys_addz; [apply new_keys_refl|]. by apply (cf_sent _ _ HI p).
    - subst s'. constructor; [done| |apply new_keys_refl..]. cbn. intros q ?%HX. auto. }
  destruct o; try discriminate.
  - destruct (claim_inv' _ _ _ _ H) as (b & y & _ & _ & _ & _ & _ & ->). apply HR, pk_eside, eside_pay.
  - destruct (lock_inv' _ _ _ _ _ _ Hc H) as (b & amt & _ & _ & _ & _ & _ & _ & _ & _ & ->). apply HR, pk_eside.
    unfold lock_result, lock_state, add_flex. by destruct (vault =? FLEXIBLE).
  - destruct (unlock_inv' _ _ _ _ _ _ Hp H) as (b & amt & d & s1 & _ & _ & _ & _ & _ & _ & _ & _ & Hu & ->).
    apply unls_frame in Hu as (_ & _ & _ & _ & _ & _ & _ & Hx & Hd). unfold dside in Hd. injection Hd as _ D1 D2 D3 _.
    apply HR, pk_same; cbn; congruence.
  - apply HR, (deliver_pk c x vaa s s' Hc Hw H).
  - destruct (transfer_inv' _ _ _ _ _ _ _ _ _ (wf_module _ _ Hw) H)
      as (b & amt & pr & sender & id & _ & -> & Hamt & _ & _ & _ & _ & _ & _ & _ & _ & ->).
    destruct (frame_burned (bump_nonce s) (AUser b) amt) as (_ & _ & E1 & E2 & _ & E3 & _ & _ & E4).
    apply HR, pk_same; [exact E3| |exact E1|exact E2]. cbn. by rewrite E4.
  - destruct (op_send_inv _ _ _ _ _ _ Hbl H) as (_ & _ & _ & _ & ->). by apply HR, pk_same.
  - destruct (op_multi_inv _ _ _ _ _ Hbl H) as (_ & _ & _ & _ & Hmu). apply multi_frame in Hmu as (_ & _ & Hx & [= _ _ D1 D2 D3] & _).
    apply HR, pk_same; auto. by rewrite Hx.
  - destruct (op_ibc_send_inv _ _ _ _ _ _ _ _ H) as (He & Hamt & Hh & ->). apply HR. constructor; [done| |apply new_keys_refl..]. cbn.
    intros p [?| ->%elem_of_list_singleton]%elem_of_app; [auto|]. right. intros _. cbn. unfold has_recipient in Hh. by apply bool_decide_eq_true in Hh.
  - destruct (op_ibc_recv_inv _ _ _ _ _ _ Hbl H) as (a & _ & _ & [[_ ->]|(_ & _ & _ & ->)]); by apply HR, pk_same.
  - destruct (op_ibc_ack_inv _ _ _ _ _ Hco Hpk H) as (p & Hpp & [[_ ->]|[_ Hf]]).
    + apply HR. constructor; [done| |apply new_keys_refl..]. cbn. intros q ?%HX. auto.
    + by eapply HR, HD.
  - destruct (op_ibc_timeout_inv _ _ _ _ Hco Hpk H) as (p & Hpp & Hf). by eapply HR, HD.
  - destruct (op_warp_send_inv c _ _ _ _ _ _ _ _ H) as (col & Hcol & He & Hamt & _ & ->). by apply HR, pk_same.
  - destruct (op_warp_recv_inv _ _ _ _ _ _ Hbl H) as (col & Hcol & ? & ? & _ & _ & ->). by apply HR, pk_same.
Qed.
Lemma configured_reachable c s : chain_ok c -> reachable c s -> configured c s.
Proof.
  intros Hc Hr. apply (reachable_inv (configured c) c s Hc Hr).
  - intros s0 []. constructor; [rewrite fresh_inflight|rewrite fresh_ext|rewrite fresh_retry].
    + by intros p ?%elem_of_nil.
    + intros k. rewrite lookup_empty. by intros [].
    + intros k. rewrite lookup_empty. by intros [].
  - intros s1 s2 o W I E. by eapply configured_op.
Qed.
Theorem packets_enabled c s p d : chain_ok c -> reachable c s -> p ∈ x_inflight (st_world s) ->
  pk_data p = Some d -> ft_denom d = c_denom c -> is_Some (d_recipients (st_dollar s) !! (IBC, pk_chan p)).
Proof.
  intros Hc Hr Hp Hd Hu. apply (cf_sent _ _ (configured_reachable _ _ Hc Hr) p Hp). unfold is_usdn. rewrite Hd. by apply bool_decide_eq_true.
Qed.
