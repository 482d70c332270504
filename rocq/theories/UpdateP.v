(** Everything an index update changes. *)
From Verif Require Export FlexP LiveP PayoutP ExactP.

(** * What stays the same *)
Definition kept (s : state) :=
  (supply s, (d_paused (st_dollar s), current_index s, total_principal s, ds_yield (d_stats (st_dollar s)), d_recipients (st_dollar s)),
   st_portal s, st_vaults s,
   (x_now (st_world s), x_vaas (st_world s), x_posted (st_world s), x_channels (st_world s), x_acked (st_world s), x_routers (st_world s))).
Definition carried_on (s : state) := (x_inflight (st_world s), x_tokens (st_world s), x_dispatched (st_world s)).
Lemma kept_send s f t y : f <> ModuleA -> t <> ModuleA -> t <> YieldA -> kept (send_result s f t y) = kept s.
Proof.
  intros H1 H2 H3. destruct (decide (f = YieldA)) as [->|Hf]; [by rewrite send_from_yield|].
  unfold kept. rewrite tp_send by done. done.
Qed.
Lemma kept_pay s a y : kept (pay s a y) = kept s.
Proof. unfold pay. destruct (0 <? y); [|done]. by rewrite send_from_yield. Qed.
Lemma kept_del s k : kept (del_retry s k) = kept s /\ carried_on (del_retry s k) = carried_on s /\ (forall a, bal (del_retry s k) a = bal s a) /\
  (forall a, prin (del_retry s k) a = prin s a) /\ (forall j, ext_yield (del_retry s k) j = ext_yield s j).
Proof. unfold del_retry. by destruct (0 <? retry s k). Qed.

(** * One channel *)
Definition esc (ch : string) : addr := AEscrow transfer_port ch.
Record channel_done (c : config) (x : oracle) (ch rc : string) (s s' : state) : Prop := {
  cd_kept : kept s' = kept s;
  cd_tokens : x_tokens (st_world s') = x_tokens (st_world s) /\ x_dispatched (st_world s') = x_dispatched (st_world s);
  cd_bal : forall a, bal s' a = bal s a + on a (esc ch) (claimable s (esc ch)) - on a YieldA (claimable s (esc ch));
  cd_prin : forall a, prin s' a = prin s a;
  cd_ext : forall k, ext_yield s' k = ext_yield s k + (if decide (k = (IBC, ch)) then claimable s (esc ch) else 0);
  cd_rest : let z := claimable s (esc ch) + retry s (IBC, ch) in
    let sent := bool_decide (o_ibc x ch = XOk /\ 0 < z <= bal s (esc ch) + claimable s (esc ch)) in
    (forall k, retry s' k = if decide (k = (IBC, ch)) then (if sent then 0 else z) else retry s k) /\
    x_inflight (st_world s') = x_inflight (st_world s) ++ (if sent then [yield_packet c ch rc z] else [])
}.
Lemma claimable_nonneg s a : 0 <= claimable s a.
Proof. unfold claimable. case_match; lia. Qed.

Lemma ibc_transfer_exact c o ch rc z s : 0 < z -> has_recipient s IBC ch = true ->
  wp (ibc_transfer c o ch (esc ch) rc z) s
    (fun s' _ => (o = XOk /\ z <= bal s (esc ch)) /\ s' = push (send_result s (esc ch) (esc ch) z) (yield_packet c ch rc z))
    (fun s' _ => ~ (o = XOk /\ z <= bal s (esc ch)) /\ (s' = s \/ s' = send_result s (esc ch) (esc ch) z)).
Proof.
  intros Hz Hr. unfold ibc_transfer, esc. destruct o.
  - apply wp_fail. split; [by intros [? _]|by left].
  - apply wp_bind, send_plain_spec; [lia|done..| |].
    + intros _. unfold xfer. rewrite (proj2 (Z.ltb_lt 0 z)) by done. unfold ics4_send_packet. apply wp_bind, wp_gets. cbn [pk_data ft_denom pk_chan].
      rewrite bool_decide_true by done. change (has_recipient (send_result ?a _ _ _) IBC ch) with (has_recipient a IBC ch). rewrite Hr. cbn [negb andb].
      apply wp_fail. split; [by intros [? _]|by right].
    + intros Hlt. split; [by intros [? _]|by left].
  - apply wp_bind, send_plain_spec; [lia|done..| |].
    + intros Hb. unfold xfer. rewrite (proj2 (Z.ltb_lt 0 z)) by done. unfold ics4_send_packet. apply wp_bind, wp_gets. cbn [pk_data ft_denom pk_chan].
      rewrite bool_decide_true by done. change (has_recipient (send_result ?a _ _ _) IBC ch) with (has_recipient a IBC ch). rewrite Hr. cbn [negb andb].
      apply wp_modify. split; [|done]. split; [done|]. lia.
    + intros Hlt. split; [intros [_ ?]; lia|by left].
Qed.
Lemma ibc_one_exact c x ch rc s : (forall a, 0 <= bal s a) -> enonneg s -> has_recipient s IBC ch = true ->
  wp (claim_ibc_one c x (ch, rc)) s (fun s' _ => channel_done c x ch rc s s') top2.
Proof.
  intros Hb Hn Hr. unfold claim_ibc_one. cbn [fst snd]. fold (esc ch). apply wp_bind, claim_module_exact; [apply Hb|]. intros Hle.
  pose proof (claimable_nonneg s (esc ch)) as Hy. set (y := claimable s (esc ch)) in *. set (s1 := pay s (esc ch) y).
  apply wp_bind, retry_remove_spec. assert (Er : retry s1 (IBC, ch) = retry s (IBC, ch)).
  { subst s1. unfold pay. destruct (0 <? y); [|done]. by rewrite send_from_yield. }
  assert (Er' : forall k, retry s1 k = retry s k).
  { intros k. subst s1. unfold pay. destruct (0 <? y); [|done]. by rewrite send_from_yield. }
  rewrite Er. set (r := retry s (IBC, ch)) in *. assert (Hr0 : 0 <= r) by apply Hn.
  assert (Hn1 : enonneg s1) by (eapply (er_pos True c s), same_rel; [apply eside_pay|done]).
  destruct (kept_del s1 (IBC, ch)) as (K1 & K2 & K3 & K4 & K5). pose proof (retry_del s1 (IBC, ch)) as K6. set (s2 := del_retry s1 (IBC, ch)) in *.
  assert (B2 : forall a, bal s2 a = bal s a + on a (esc ch) y - on a YieldA y).
  { intros a. rewrite K3. subst s1. rewrite bal_pay' by done. unfold ind, on. done. }
  assert (P2 : forall a, prin s2 a = prin s a) by (intros a; rewrite K4; apply untouched_pay).
  assert (Ke2 : kept s2 = kept s) by (rewrite K1; apply kept_pay).
  assert (E2 : forall k, ext_yield s2 k = ext_yield s k).
  { intros k. rewrite K5. subst s1. unfold pay. destruct (0 <? y); [|done]. by rewrite send_from_yield. }
  assert (C2 : carried_on s2 = carried_on s).
  { rewrite K2. subst s1. unfold pay. destruct (0 <? y); [|done]. by rewrite send_from_yield. }
  unfold carried_on in C2. injection C2 as C21 C22 C23.
  assert (Hr2 : has_recipient s2 IBC ch = true).
  { unfold has_recipient. assert (d_recipients (st_dollar s2) = d_recipients (st_dollar s)) as ->; [|done]. unfold kept in Ke2. congruence. }
  apply wp_bind, wp_lift; [|by intros e ?%int_add_err]. intros z ->%int_add_ok.
  assert (Hbe : bal s2 (esc ch) = bal s (esc ch) + y) by (rewrite B2; unfold on; rewrite decide_True, decide_False by done; lia).
  destruct (Z.ltb_spec 0 (y + r)) as [Hz|Hz]; cbn [negb].
  - apply wp_bind, wp_try. eapply wp_mono; [by apply ibc_transfer_exact| |]; cbn beta.
    + intros s3 _ [[Ho Hz2] ->]. cbn [negb whenb]. apply wp_bind, wp_ret, increment_ext_spec.
      assert (Hs : bool_decide (o_ibc x ch = XOk /\ 0 < y + r <= bal s (esc ch) + y) = true) by (apply bool_decide_true; rewrite <- Hbe; auto).
      set (s3 := send_result s2 (esc ch) (esc ch) (y + r)).
      assert (K3' : kept s3 = kept s) by (unfold s3; by rewrite kept_send).
      assert (B3 : forall a, bal s3 a = bal s2 a) by (intros; unfold s3; rewrite bal_send; lia).
      assert (P3 : forall a, prin s3 a = prin s2 a) by (intros; unfold s3; rewrite prin_send by done; lia).
      constructor.
      * exact K3'.
      * split; [exact C22|exact C23].
      * intros a. change (bal s3 a = bal s a + on a (esc ch) y - on a YieldA y). by rewrite B3.
      * intros a. change (prin s3 a = prin s a). by rewrite P3.
      * intros k. unfold ext_yield at 1. cbn. rewrite mget_addz. change (mget (d_ext_yield (st_dollar s2)) k) with (ext_yield s2 k). rewrite E2.
        fold y. done.
      * cbn zeta. fold y r. rewrite Hs. split; [|cbn; by rewrite C21]. intros k. change (retry s2 k = if decide (k = (IBC, ch)) then 0 else retry s k).
        rewrite K6 by done. repeat case_decide; try done; apply Er'.
    + intros s3 e [Hns H3]. cbn [negb whenb]. apply wp_bind, increment_retry_spec, increment_ext_spec.
      assert (Hs : bool_decide (o_ibc x ch = XOk /\ 0 < y + r <= bal s (esc ch) + y) = false).
      { apply bool_decide_false. rewrite <- Hbe. intros [? ?]. apply Hns. split; [done|lia]. }
      assert (H3' : kept s3 = kept s /\ (forall a, bal s3 a = bal s2 a) /\ (forall a, prin s3 a = prin s2 a) /\
        st_world s3 = st_world s2 /\ d_retry (st_dollar s3) = d_retry (st_dollar s2) /\ d_ext_yield (st_dollar s3) = d_ext_yield (st_dollar s2)).
      { destruct H3 as [->| ->]; [done|]. split; [by rewrite kept_send|]. split; [intros; rewrite bal_send; lia|].
        split; [intros; rewrite prin_send by done; lia|done]. }
      destruct H3' as (Q1 & Q2 & Q3 & Q4 & Q5 & Q6). clear H3.
      constructor.
      * exact Q1.
      * split; [change (x_tokens (st_world s3) = x_tokens (st_world s)); by rewrite Q4|change (x_dispatched (st_world s3) = x_dispatched (st_world s)); by rewrite Q4].
      * intros a. change (bal s3 a = bal s a + on a (esc ch) y - on a YieldA y). by rewrite Q2.
      * intros a. change (prin s3 a = prin s a). by rewrite Q3.
      * intros k. unfold ext_yield at 1. cbn. rewrite mget_addz, Q6. change (mget (d_ext_yield (st_dollar s2)) k) with (ext_yield s2 k). rewrite E2.
        fold y. done.
      * cbn zeta. fold y r. rewrite Hs. split; [|change (x_inflight (st_world s3) = x_inflight (st_world s) ++ []); by rewrite Q4, C21, app_nil_r].
        intros k. unfold retry at 1. cbn. rewrite mget_addz, Q5. change (mget (d_retry (st_dollar s2)) k) with (retry s2 k). rewrite K6 by done.
        repeat case_decide; try done; rewrite ?Er'; lia.
  - apply wp_ret. assert (y = 0) as Hy0 by lia. assert (r = 0) as Hr00 by lia.
    assert (Hs : bool_decide (o_ibc x ch = XOk /\ 0 < y + r <= bal s (esc ch) + y) = false) by (apply bool_decide_false; intros [_ ?]; lia).
    constructor.
    + exact Ke2.
    + by split.
    + exact B2.
    + exact P2.
    + intros k. rewrite E2. fold y. rewrite Hy0. repeat case_decide; lia.
    + cbn zeta. fold y r. rewrite Hs. split; [|by rewrite C21, app_nil_r]. intros k. rewrite K6 by done. rewrite Er'. repeat case_decide; try done; lia.
Qed.

(** * All channels *)
Record channels_done (c : config) (x : oracle) (l : list (string * string)) (s s' : state) : Prop := {
  cs_kept : kept s' = kept s;
  cs_tokens : x_tokens (st_world s') = x_tokens (st_world s) /\ x_dispatched (st_world s') = x_dispatched (st_world s);
  cs_bal : forall a, bal s' a = bal s a + list_sum (fun cr => on a (esc cr.1) (claimable s (esc cr.1))) l
    - on a YieldA (list_sum (fun cr => claimable s (esc cr.1)) l);
  cs_prin : forall a, prin s' a = prin s a;
  cs_ext : forall k, ext_yield s' k = ext_yield s k + (if decide (k.1 = IBC /\ k.2 ∈ l.*1) then claimable s (esc k.2) else 0);
  cs_retry : forall k, retry s' k = if decide (k.1 = IBC /\ k.2 ∈ l.*1)
    then (if decide (o_ibc x k.2 = XOk /\ 0 < claimable s (esc k.2) + retry s k <= bal s (esc k.2) + claimable s (esc k.2)) then 0
          else claimable s (esc k.2) + retry s k)
    else retry s k;
  cs_fly : x_inflight (st_world s') = x_inflight (st_world s) ++
    omap (fun cr => if decide (o_ibc x cr.1 = XOk /\ 0 < claimable s (esc cr.1) + retry s (IBC, cr.1) <= bal s (esc cr.1) + claimable s (esc cr.1))
      then Some (yield_packet c cr.1 cr.2 (claimable s (esc cr.1) + retry s (IBC, cr.1))) else None) l
}.
Lemma list_sum_cons {A} (f : A -> Z) x l : list_sum f (x :: l) = f x + list_sum f l.
Proof. done. Qed.
Lemma list_sum_ext {A} (f g : A -> Z) l : (forall z, z ∈ l -> f z = g z) -> list_sum f l = list_sum g l.
Proof.
  induction l as [|z l IH]; intros H; [done|]. rewrite !list_sum_cons, IH, (H z); [done|by left|]. intros ??. apply H. by right.
Qed.
Lemma omap_ext' {A B} (f g : A -> option B) (l : list A) : (forall z, z ∈ l -> f z = g z) -> omap f l = omap g l.
Proof.
  induction l as [|z l IH]; intros H; [done|]. cbn [omap list_omap]. rewrite (H z) by by left. assert (omap f l = omap g l) as ->; [|done].
  apply IH. intros ??. apply H. by right.
Qed.
Lemma claimable_eq s s' a : bal s' a = bal s a -> prin s' a = prin s a -> current_index s' = current_index s -> claimable s' a = claimable s a.
Proof. intros H1 H2 H3. unfold claimable. by rewrite H1, H2, H3. Qed.
Lemma kept_index s s' : kept s' = kept s -> current_index s' = current_index s.
Proof. unfold kept. intros. congruence. Qed.
Lemma kept_recipients s s' : kept s' = kept s -> d_recipients (st_dollar s') = d_recipients (st_dollar s).
Proof. unfold kept. intros. congruence. Qed.
Lemma channel_nonneg c x ch rc s s' : (forall a, 0 <= bal s a) -> claimable s (esc ch) <= bal s YieldA -> enonneg s -> channel_done c x ch rc s s' ->
  (forall a, 0 <= bal s' a) /\ enonneg s'.
Proof.
  intros Hb Hy Hn D. split.
  - intros a. rewrite (cd_bal _ _ _ _ _ _ D). pose proof (Hb a). pose proof (claimable_nonneg s (esc ch)). unfold on. repeat case_decide; subst; lia.
  - destruct Hn as [N1 N2]. destruct (cd_rest _ _ _ _ _ _ D) as [R _]. split.
    + intros k. rewrite R. pose proof (N1 k). pose proof (N1 (IBC, ch)). pose proof (claimable_nonneg s (esc ch)). repeat case_match; lia.
    + intros t v. rewrite (proj1 (cd_tokens _ _ _ _ _ _ D)). apply N2.
Qed.
Lemma ibc_one_funds c x ch rc s : (forall a, 0 <= bal s a) ->
  wp (claim_ibc_one c x (ch, rc)) s (fun _ _ => claimable s (esc ch) <= bal s YieldA) top2.
Proof.
  intros Hb. unfold claim_ibc_one. cbn [fst snd]. fold (esc ch). apply wp_bind, claim_module_exact; [apply Hb|]. intros Hle.
  apply wp_any. intros _ _. pose proof (Hb YieldA). lia.
Qed.
Lemma ibc_loop_exact c x l : NoDup l.*1 -> forall s, (forall a, 0 <= bal s a) -> enonneg s ->
  (forall cr, cr ∈ l -> is_Some (d_recipients (st_dollar s) !! (IBC, cr.1))) ->
  wp (for_each (claim_ibc_one c x) l) s (fun s' _ => channels_done c x l s s' /\ (forall a, 0 <= bal s' a) /\ enonneg s') top2.
Proof.
  induction l as [|[ch rc] l IH]; intros Hnd s Hb Hn Hr.
  - apply wp_ret. split; [|done]. constructor; try done.
    + intros a. unfold list_sum. cbn. unfold on. case_decide; lia.
    + intros k. rewrite decide_False; [lia|]. intros [_ H]. by apply elem_of_nil in H.
    + intros k. rewrite decide_False; [done|]. intros [_ H]. by apply elem_of_nil in H.
    + cbn. by rewrite app_nil_r.
  - cbn [fmap list_fmap fst] in Hnd. apply NoDup_cons in Hnd as [Hni Hnd]. cbn [for_each]. apply wp_bind.
    assert (W1 := ibc_one_exact c x ch rc s Hb Hn ltac:(apply bool_decide_true, (Hr (ch, rc)); by left)).
    eapply wp_mono; [apply (wp_conj _ _ _ _ _ _ W1 (ibc_one_funds c x ch rc s Hb))| |done]; cbn beta. intros s1 [] [D Hf].
    destruct (channel_nonneg _ _ _ _ _ _ Hb Hf Hn D) as [Hb1 Hn1].
    eapply wp_mono; [apply (IH Hnd s1 Hb1 Hn1)| |done]; cbn beta.
    { intros cr Hcr. rewrite (kept_recipients _ _ (cd_kept _ _ _ _ _ _ D)). apply Hr. by right. }
    intros s2 [] (L & Hb2 & Hn2). split; [|done].
    assert (Hoth : forall ch', ch' ∈ l.*1 -> ch' <> ch /\ claimable s1 (esc ch') = claimable s (esc ch') /\
      bal s1 (esc ch') = bal s (esc ch') /\ retry s1 (IBC, ch') = retry s (IBC, ch')).
    { intros ch' Hin. assert (ch' <> ch) as Hne by (intros ->; done). split; [done|].
      assert (bal s1 (esc ch') = bal s (esc ch')) as Hbe.
      { rewrite (cd_bal _ _ _ _ _ _ D). unfold on. rewrite !decide_False; [lia|done|]. unfold esc. congruence. }
      split; [|split; [done|]].
      - apply claimable_eq; [done|apply (cd_prin _ _ _ _ _ _ D)|apply kept_index, (cd_kept _ _ _ _ _ _ D)].
      - rewrite (proj1 (cd_rest _ _ _ _ _ _ D)). rewrite decide_False; [done|congruence]. }
    assert (Hin : forall cr, cr ∈ l -> cr.1 ∈ l.*1) by (intros cr ?; by apply elem_of_list_fmap_1).
    constructor.
    + rewrite (cs_kept _ _ _ _ _ L). apply D.
    + rewrite !(proj1 (cs_tokens _ _ _ _ _ L)), !(proj2 (cs_tokens _ _ _ _ _ L)). apply D.
    + intros a. rewrite (cs_bal _ _ _ _ _ L), (cd_bal _ _ _ _ _ _ D), !list_sum_cons. cbn [fst].
      rewrite (list_sum_ext (fun cr => on a (esc cr.1) (claimable s1 (esc cr.1))) (fun cr => on a (esc cr.1) (claimable s (esc cr.1)))).
      2:{ intros cr H. by rewrite (proj1 (proj2 (Hoth _ (Hin _ H)))). }
      rewrite (list_sum_ext (fun cr => claimable s1 (esc cr.1)) (fun cr => claimable s (esc cr.1))).
      2:{ intros cr H. apply (Hoth _ (Hin _ H)). }
      unfold on. repeat case_decide; lia.
    + intros a. rewrite (cs_prin _ _ _ _ _ L). apply D.
    + intros k. rewrite (cs_ext _ _ _ _ _ L), (cd_ext _ _ _ _ _ _ D). cbn [fmap list_fmap fst].
      destruct k as [p id]. cbn [fst snd]. destruct (decide ((p, id) = (IBC, ch))) as [[= -> ->]|Hne].
      * rewrite (decide_False (P := IBC = IBC /\ ch ∈ l.*1)) by (intros [_ ?]; done).
        rewrite (decide_True (P := IBC = IBC /\ ch ∈ ch :: l.*1)) by (split; [done|by left]). lia.
      * destruct (decide (p = IBC /\ id ∈ l.*1)) as [[-> Hi]|Hno].
        -- rewrite (decide_True (P := IBC = IBC /\ id ∈ ch :: l.*1)) by (split; [done|by right]). rewrite (proj1 (proj2 (Hoth _ Hi))). lia.
        -- rewrite decide_False; [lia|]. intros [-> [->|?]%elem_of_cons]; auto.
    + intros k. rewrite (cs_retry _ _ _ _ _ L). destruct (cd_rest _ _ _ _ _ _ D) as [R _]. cbn zeta in R. cbn [fmap list_fmap fst].
      destruct k as [p id]. cbn [fst snd]. destruct (decide (p = IBC /\ id ∈ l.*1)) as [[-> Hi]|Hno].
      * rewrite (decide_True (P := IBC = IBC /\ id ∈ ch :: l.*1)) by (split; [done|by right]).
        destruct (Hoth _ Hi) as (_ & E1 & E2 & E3). by rewrite E1, E2, E3.
      * rewrite R. destruct (decide ((p, id) = (IBC, ch))) as [[= -> ->]|Hne].
        -- rewrite (decide_True (P := IBC = IBC /\ ch ∈ ch :: l.*1)) by (split; [done|by left]). repeat (case_bool_decide || case_decide); cbn [app]; try done; tauto.
        -- rewrite decide_False; [done|]. intros [-> [->|?]%elem_of_cons]; auto.
    + rewrite (cs_fly _ _ _ _ _ L), (proj2 (cd_rest _ _ _ _ _ _ D)), <- app_assoc. f_equal. cbn [omap list_omap fst snd].
      rewrite (omap_ext' _ (fun cr => if decide (o_ibc x cr.1 = XOk /\ 0 < claimable s (esc cr.1) + retry s (IBC, cr.1) <= bal s (esc cr.1) + claimable s (esc cr.1))
        then Some (yield_packet c cr.1 cr.2 (claimable s (esc cr.1) + retry s (IBC, cr.1))) else None) l).
      2:{ intros cr H. destruct (Hoth _ (Hin _ H)) as (_ & E1 & E2 & E3). by rewrite E1, E2, E3. }
      repeat (case_bool_decide || case_decide); cbn [app]; try done; tauto.
Qed.

(** * One hyperlane route *)
Definition attempt (c : config) (s : state) (h : hyp_route) (z : Z) : option hypmsg :=
  match c_hex c (hr_recipient h), x_routers (st_world s) !! hr_token h with
  | Some r, Some [d] => if decide (0 < z <= bal s WarpA) then Some (mk_hypmsg WarpA (hr_token h) d r z) else None
  | _, _ => None
  end.
Definition sent_now (x : oracle) (h : hyp_route) (a : option hypmsg) : option hypmsg := if decide (o_hyp x (hr_id h) = XOk) then a else None.
Definition write_token (x : oracle) (m : gmap Z Z) (h : hyp_route) (a : option hypmsg) : gmap Z Z :=
  match a with
  | Some g => if decide (o_hyp x (hr_id h) = XReject) then m else <[hm_token g := hr_collateral h + hm_amount g]> m
  | None => m
  end.
Record route_exact (c : config) (x : oracle) (h : hyp_route) (q : Z) (s s' : state) : Prop := {
  re_kept : kept s' = kept s;
  re_fly : x_inflight (st_world s') = x_inflight (st_world s);
  re_bal : forall a, bal s' a = bal s a;
  re_prin : forall a, prin s' a = prin s a;
  re_ext : forall k, ext_yield s' k = ext_yield s k + (if decide (k = (HYPERLANE, hr_id h)) then q else 0);
  re_rest : let z := q + retry s (HYPERLANE, hr_id h) in let a := attempt c s h z in
    (forall k, retry s' k = if decide (k = (HYPERLANE, hr_id h)) then (if sent_now x h a then 0 else z) else retry s k) /\
    x_tokens (st_world s') = write_token x (x_tokens (st_world s)) h a /\
    x_dispatched (st_world s') = x_dispatched (st_world s) ++ match sent_now x h a with Some g => [g] | None => [] end
}.
Lemma warp_transfer_exact o tok col domain rc z s : 0 < z ->
  wp (warp_transfer o tok col WarpA domain rc z) s
    (fun s' _ => (o = XOk /\ z <= bal s WarpA) /\
       s' = dispatch (set_token (send_result s WarpA WarpA z) tok (col + z)) (mk_hypmsg WarpA tok domain rc z))
    (fun s' _ => o <> XReject /\ o <> XOk /\ z <= bal s WarpA /\ s' = set_token (send_result s WarpA WarpA z) tok (col + z) \/
                 (o = XReject \/ ~ z <= bal s WarpA) /\ s' = s).
Proof.
  intros Hz. unfold warp_transfer. destruct o.
  - apply wp_fail. right. auto.
  - apply wp_bind, send_plain_spec; [lia|done..| |].
    + intros Hb. unfold xfer. rewrite (proj2 (Z.ltb_lt 0 z)) by done. apply wp_bind, wp_lift; [|by intros e ?%int_add_err]. intros z' ->%int_add_ok.
      apply wp_bind, wp_modify, wp_fail. left. split_and!; try done. lia.
    + intros Hlt. right. split; [right; lia|done].
  - apply wp_bind, send_plain_spec; [lia|done..| |].
    + intros Hb. unfold xfer. rewrite (proj2 (Z.ltb_lt 0 z)) by done. apply wp_bind, wp_lift; [|by intros e ?%int_add_err]. intros z' ->%int_add_ok.
      apply wp_bind, wp_modify, wp_modify. split; [split; [done|lia]|done].
    + intros Hlt. right. split; [right; lia|done].
Qed.
Lemma hyp_one_exact c x total y h s q : enonneg s -> 0 <= q -> yield_portion (hr_collateral h) total y = POk q ->
  wp (claim_hyp_one c x total y h) s (fun s' _ => route_exact c x h q s s') top2.
Proof.
  intros Hn Hq Eq. unfold claim_hyp_one. rewrite Eq. apply wp_bind, wp_lift; [|done]. intros q' [= <-].
  apply wp_bind, retry_remove_spec. set (k := (HYPERLANE, hr_id h)) in *. set (r := retry s k) in *. assert (Hr0 : 0 <= r) by apply Hn.
  destruct (kept_del s k) as (K1 & K2 & K3 & K4 & K5). pose proof (retry_del s k) as K6. set (s2 := del_retry s k) in *.
  unfold carried_on in K2. injection K2 as C1 C2 C3.
  assert (Hrt : x_routers (st_world s2) = x_routers (st_world s)) by (unfold kept in K1; congruence).
  apply wp_bind, wp_lift; [|by intros e ?%int_add_err]. intros z ->%int_add_ok.
  destruct (Z.ltb_spec 0 (q + r)) as [Hz|Hz]; cbn [negb].
  2:{ apply wp_ret. assert (q = 0) as Hq0 by lia. assert (r = 0) as Hr1 by lia.
      assert (Ha : attempt c s h (q + r) = None) by (unfold attempt; repeat case_match; try done; lia).
      constructor; try done.
      - intros j. rewrite K5, Hq0. case_decide; lia.
      - cbn zeta. fold k r. rewrite Ha. cbn [sent_now write_token]. unfold sent_now.
        replace (if decide (o_hyp x (hr_id h) = XOk) then None else None) with (@None hypmsg) by by case_decide.
        split; [|split; [done|by rewrite C3, app_nil_r]]. intros j. rewrite K6 by done. repeat case_decide; try done; lia. }
  unfold get_router. apply wp_bind, wp_bind, wp_gets. rewrite Hrt.
  destruct (x_routers (st_world s) !! hr_token h) as [[|d [|]]|] eqn:Er; cbn [default from_option id]; try (by apply wp_fail).
  apply wp_ret. destruct (c_hex c (hr_recipient h)) as [rc|] eqn:Eh; [|by apply wp_fail].
  assert (Ha : attempt c s h (q + r) = if decide (q + r <= bal s WarpA) then Some (mk_hypmsg WarpA (hr_token h) d rc (q + r)) else None).
  { unfold attempt. rewrite Eh, Er. repeat case_decide; try done; lia. }
  apply wp_bind, wp_try. eapply wp_mono; [by apply warp_transfer_exact| |]; cbn beta; rewrite K3.
  - intros s3 _ [[Ho Hb] ->]. cbn [negb whenb]. apply wp_bind, wp_ret, increment_ext_spec. fold k.
    set (s3 := send_result s2 WarpA WarpA (q + r)).
    assert (K3' : kept s3 = kept s) by (unfold s3; by rewrite kept_send).
    assert (B3 : forall a, bal s3 a = bal s a) by (intros; unfold s3; rewrite bal_send, K3; lia).
    assert (P3 : forall a, prin s3 a = prin s a) by (intros; unfold s3; rewrite prin_send, K4 by done; lia).
    rewrite decide_True in Ha by done. constructor.
    + exact K3'.
    + exact C1.
    + exact B3.
    + exact P3.
    + intros j. unfold ext_yield at 1. cbn. rewrite mget_addz. change (mget (d_ext_yield (st_dollar s2)) j) with (ext_yield s2 j). by rewrite K5.
    + cbn zeta. fold k r. rewrite Ha. unfold sent_now, write_token. rewrite Ho. rewrite decide_True, decide_False by done. split; [|split].
      * intros j. change (retry s2 j = if decide (j = k) then 0 else retry s j). rewrite K6 by done. repeat case_decide; done.
      * cbn. by rewrite C2.
      * cbn. by rewrite C3.
  - intros s3 e H3. cbn [negb whenb]. apply wp_bind, increment_retry_spec, increment_ext_spec. fold k.
    assert (H3' : kept s3 = kept s /\ (forall a, bal s3 a = bal s2 a) /\ (forall a, prin s3 a = prin s2 a) /\
        x_inflight (st_world s3) = x_inflight (st_world s2) /\ x_dispatched (st_world s3) = x_dispatched (st_world s2) /\
        d_retry (st_dollar s3) = d_retry (st_dollar s2) /\ d_ext_yield (st_dollar s3) = d_ext_yield (st_dollar s2)).
    { destruct H3 as [(_ & _ & _ & ->)|[_ ->]]; [|done].
      change (kept (set_token ?a _ _)) with (kept a). split; [by rewrite kept_send|]. split; [intros a; change (bal (set_token ?b _ _) a) with (bal b a); rewrite bal_send; lia|].
      split; [intros a; change (prin (set_token ?b _ _) a) with (prin b a); rewrite prin_send by done; lia|done]. }
    destruct H3' as (Q1 & Q2 & Q3 & Q4 & Q5 & Q6 & Q7).
    assert (Hno : sent_now x h (attempt c s h (q + r)) = None).
    { unfold sent_now. rewrite Ha. destruct (decide (o_hyp x (hr_id h) = XOk)) as [Ho|Ho]; [|reflexivity]. destruct H3 as [(_ & ? & _)|[[?|?] _]]; [done|congruence|by rewrite decide_False]. }
    constructor.
    + exact Q1.
    + change (x_inflight (st_world s3) = x_inflight (st_world s)). by rewrite Q4.
    + intros a. change (bal s3 a = bal s a). by rewrite Q2, K3.
    + intros a. change (prin s3 a = prin s a). by rewrite Q3, K4.
    + intros j. unfold ext_yield at 1. cbn. rewrite mget_addz, Q7. change (mget (d_ext_yield (st_dollar s2)) j) with (ext_yield s2 j). by rewrite K5.
    + cbn zeta. fold k r. rewrite Hno. split; [|split].
      * intros j. unfold retry at 1. cbn. rewrite mget_addz, Q6. change (mget (d_retry (st_dollar s2)) j) with (retry s2 j). rewrite K6 by done.
        repeat case_decide; try done; lia.
      * change (x_tokens (st_world s3) = write_token x (x_tokens (st_world s)) h (attempt c s h (q + r))). rewrite Ha.
        destruct H3 as [(Ho & _ & Hb & ->)|[Ho ->]].
        -- rewrite decide_True by done. unfold write_token. rewrite decide_False by done. cbn. by rewrite C2.
        -- rewrite C2. destruct (decide (q + r <= bal s WarpA)); [|done]. unfold write_token. destruct Ho as [Ho|?]; [|done]. by rewrite decide_True.
      * change (x_dispatched (st_world s3) = x_dispatched (st_world s) ++ []). by rewrite Q5, C3, app_nil_r.
Qed.

(** * All hyperlane routes *)
Definition route_try (c : config) (q : string -> Z) (s : state) (h : hyp_route) : option hypmsg :=
  attempt c s h (q (hr_id h) + retry s (HYPERLANE, hr_id h)).
Record routes_done (c : config) (x : oracle) (q : string -> Z) (l : list hyp_route) (s s' : state) : Prop := {
  rs_kept : kept s' = kept s;
  rs_fly : x_inflight (st_world s') = x_inflight (st_world s);
  rs_bal : forall a, bal s' a = bal s a;
  rs_prin : forall a, prin s' a = prin s a;
  rs_ext : forall k, ext_yield s' k = ext_yield s k + (if decide (k.1 = HYPERLANE /\ k.2 ∈ hr_id <$> l) then q k.2 else 0);
  rs_retry : forall h, h ∈ l -> retry s' (HYPERLANE, hr_id h) =
    if sent_now x h (route_try c q s h) then 0 else q (hr_id h) + retry s (HYPERLANE, hr_id h);
  rs_other : forall k, ~ (k.1 = HYPERLANE /\ k.2 ∈ hr_id <$> l) -> retry s' k = retry s k;
  rs_tokens : x_tokens (st_world s') = foldl (fun m h => write_token x m h (route_try c q s h)) (x_tokens (st_world s)) l;
  rs_dispatched : x_dispatched (st_world s') = x_dispatched (st_world s) ++ omap (fun h => sent_now x h (route_try c q s h)) l
}.
Lemma foldl_ext' {A B} (f g : A -> B -> A) (l : list B) : (forall m z, z ∈ l -> f m z = g m z) -> forall m, foldl f m l = foldl g m l.
Proof.
  induction l as [|z l IH]; intros H m; [done|]. cbn [foldl]. rewrite H by by left. apply IH. intros. apply H. by right.
Qed.
Lemma kept_routers s s' : kept s' = kept s -> x_routers (st_world s') = x_routers (st_world s).
Proof. unfold kept. intros. congruence. Qed.
Lemma route_try_eq c q s s' h : kept s' = kept s -> bal s' WarpA = bal s WarpA -> retry s' (HYPERLANE, hr_id h) = retry s (HYPERLANE, hr_id h) ->
  route_try c q s' h = route_try c q s h.
Proof. intros H1%kept_routers H2 H3. unfold route_try, attempt. by rewrite H1, H2, H3. Qed.
Lemma attempt_pos c s h z g : attempt c s h z = Some g -> hm_amount g = z /\ 0 < z.
Proof. unfold attempt. repeat case_match; try done. intros [= <-]. cbn. split; [done|lia]. Qed.
Lemma hyp_loop_exact c x total y (q : string -> Z) l : NoDup (hr_id <$> l) ->
  (forall h, h ∈ l -> 0 <= hr_collateral h /\ 0 <= q (hr_id h) /\ forall z, yield_portion (hr_collateral h) total y = POk z -> z = q (hr_id h)) ->
  forall s, enonneg s -> wp (for_each (claim_hyp_one c x total y) l) s (fun s' _ => routes_done c x q l s s') top2.
Proof.
  intros Hnd. induction l as [|h l IH]; intros Hq s Hn.
  - apply wp_ret. constructor; try done.
    + intros k. rewrite decide_False; [lia|]. intros [_ H]. by apply elem_of_nil in H.
    + by intros h ?%elem_of_nil.
    + cbn. by rewrite app_nil_r.
  - cbn [fmap list_fmap] in Hnd. apply NoDup_cons in Hnd as [Hni Hnd]. cbn [for_each]. apply wp_bind.
    destruct (Hq h) as (Hc0 & Hq0 & Hqz); [by left|].
    destruct (yield_portion (hr_collateral h) total y) as [z| |] eqn:Ey.
    2,3: unfold claim_hyp_one; rewrite Ey; by apply wp_bind, wp_lift.
    rewrite (Hqz z eq_refl) in Ey. eapply wp_mono; [apply (hyp_one_exact c x total y h s _ Hn Hq0 Ey)| |done]; cbn beta. intros s1 [] D.
    destruct (re_rest _ _ _ _ _ _ D) as (R1 & R2 & R3). cbn zeta in R1, R2, R3. fold (route_try c q s h) in R1, R2, R3.
    assert (Hn1 : enonneg s1).
    { destruct Hn as [N1 N2]. split.
      - intros k. rewrite R1. pose proof (N1 k). pose proof (N1 (HYPERLANE, hr_id h)). repeat case_match; lia.
      - intros t v. rewrite R2. unfold write_token. destruct (route_try c q s h) as [g|] eqn:Eg; [|apply N2]. case_decide; [apply N2|].
        destruct (decide (hm_token g = t)) as [<-|Hne]; [rewrite lookup_insert|rewrite lookup_insert_ne by done; apply N2].
        intros [= <-]. apply attempt_pos in Eg as [-> ?]. lia. }
    eapply wp_mono; [apply (IH Hnd)| |done]; cbn beta; [intros h' ?; apply Hq; by right|done|]. intros s2 [] L.
    assert (Hoth : forall h', h' ∈ l -> retry s1 (HYPERLANE, hr_id h') = retry s (HYPERLANE, hr_id h') /\ route_try c q s1 h' = route_try c q s h').
    { intros h' Hin. assert (retry s1 (HYPERLANE, hr_id h') = retry s (HYPERLANE, hr_id h')) as Hr.
      { rewrite R1. rewrite decide_False; [done|]. intros [= E]. apply Hni. rewrite <- E. by apply elem_of_list_fmap_1. }
      split; [done|]. apply route_try_eq; [apply D..|done]. }
    constructor.
    + rewrite (rs_kept _ _ _ _ _ _ L). apply D.
    + rewrite (rs_fly _ _ _ _ _ _ L). apply D.
    + intros a. rewrite (rs_bal _ _ _ _ _ _ L). apply D.
    + intros a. rewrite (rs_prin _ _ _ _ _ _ L). apply D.
    + intros [p id]. rewrite (rs_ext _ _ _ _ _ _ L), (re_ext _ _ _ _ _ _ D). cbn [fmap list_fmap fst snd].
      destruct (decide ((p, id) = (HYPERLANE, hr_id h))) as [[= -> ->]|Hne].
      * rewrite (decide_False (P := HYPERLANE = HYPERLANE /\ hr_id h ∈ hr_id <$> l)) by (intros [_ ?]; done).
        rewrite decide_True by (split; [done|by left]). lia.
      * destruct (decide (p = HYPERLANE /\ id ∈ hr_id <$> l)) as [[-> Hi]|Hno].
        -- rewrite decide_True by (split; [done|by right]). lia.
        -- rewrite decide_False; [lia|]. intros [-> [->|?]%elem_of_cons]; auto.
    + intros h' [->|Hin]%elem_of_cons.
      * rewrite (rs_other _ _ _ _ _ _ L) by (intros [_ ?]; done). rewrite R1. by rewrite decide_True.
      * rewrite (rs_retry _ _ _ _ _ _ L _ Hin). destruct (Hoth _ Hin) as [E1 E2]. by rewrite E1, E2.
    + intros [p id] Hno. cbn [fst snd fmap list_fmap] in Hno. rewrite (rs_other _ _ _ _ _ _ L).
      2:{ cbn [fst snd]. intros [? ?]. apply Hno. split; [done|by right]. }
      rewrite R1. rewrite decide_False; [done|]. intros [= -> ->]. apply Hno. split; [done|by left].
    + rewrite (rs_tokens _ _ _ _ _ _ L), R2. cbn [foldl]. apply foldl_ext'. intros m h' Hin. by rewrite (proj2 (Hoth _ Hin)).
    + rewrite (rs_dispatched _ _ _ _ _ _ L), R3, <- app_assoc. f_equal. cbn [omap list_omap].
      rewrite (omap_ext' _ (fun h => sent_now x h (route_try c q s h)) l); [by destruct (sent_now x h (route_try c q s h))|].
      intros h' Hin. by rewrite (proj2 (Hoth _ Hin)).
Qed.

(** * The hyperlane part *)
Record hyp_done (c : config) (x : oracle) (i : Z) (s s' : state) : Prop := {
  hd_kept : kept s' = kept s;
  hd_fly : x_inflight (st_world s') = x_inflight (st_world s);
  hd_bal : forall a, bal s' a = bal s a + on a WarpA (claim_at s i WarpA) - on a YieldA (claim_at s i WarpA);
  hd_prin : forall a, prin s' a = prin s a;
  hd_ext : forall k, ext_yield s' k = ext_yield s k + (if decide (k.1 = HYPERLANE) then external_claim c s i HYPERLANE k.2 else 0);
  hd_retry : forall k, retry s' k = if decide (k.1 = HYPERLANE)
    then (if decide (is_Some (route_message c x s i k.2)) then 0 else retry s k + external_claim c s i HYPERLANE k.2) else retry s k;
  hd_tokens : x_tokens (st_world s') = foldl (collateral_write c x s i) (x_tokens (st_world s)) (recipients_of s HYPERLANE).*1;
  hd_dispatched : x_dispatched (st_world s') = x_dispatched (st_world s) ++ omap (route_message c x s i) (recipients_of s HYPERLANE).*1
}.
Lemma foldl_none {A B} (f : A -> B -> A) (l : list B) m : (forall m z, z ∈ l -> f m z = m) -> foldl f m l = m.
Proof. revert m. induction l as [|z l IH]; intros m H; [done|]. cbn. rewrite H by by left. apply IH. intros. apply H. by right. Qed.
Lemma omap_none {A B} (f : A -> option B) (l : list A) : (forall z, z ∈ l -> f z = None) -> omap f l = [].
Proof. induction l as [|z l IH]; intros H; [done|]. cbn. rewrite H by by left. apply IH. intros. apply H. by right. Qed.
Lemma ext_claim_hyp c s i id : external_claim c s i HYPERLANE id =
  if d_recipients (st_dollar s) !! (HYPERLANE, id) then route_share c s (claim_at s i WarpA) id else 0.
Proof. unfold external_claim. by destruct (d_recipients _ !! _). Qed.
Lemma foldl_fmap2 {A B C} (R : A -> B -> Prop) (f : C -> A -> C) (g : C -> B -> C) l k : Forall2 R l k ->
  (forall m a b, R a b -> a ∈ l -> f m a = g m b) -> forall m, foldl f m l = foldl g m k.
Proof.
  induction 1 as [|a b l k Hab H IH]; intros Hf m; [done|]. cbn. rewrite (Hf m a b) by (done || by left). apply IH. intros. apply Hf; [done|by right].
Qed.
Lemma omap_fmap2 {A B C} (R : A -> B -> Prop) (f : A -> option C) (g : B -> option C) (l : list A) (k : list B) : Forall2 R l k ->
  (forall a b, R a b -> a ∈ l -> f a = g b) -> omap f l = omap g k.
Proof.
  induction 1 as [|a b l k Hab H IH]; intros Hf; [done|]. cbn [omap list_omap]. rewrite (Hf a b) by (done || by left).
  assert (omap f l = omap g k) as ->; [|done]. apply IH. intros. apply Hf; [done|by right].
Qed.
Lemma foldl_fst {A B C} (f : C -> A -> C) (l : list (A * B)) : forall m, foldl f m l.*1 = foldl (fun m ab => f m ab.1) m l.
Proof. induction l as [|ab l IH]; intros m; [done|]. apply IH. Qed.
Lemma omap_fst {A B C} (f : A -> option C) (l : list (A * B)) : omap f l.*1 = omap (fun ab => f ab.1) l.
Proof. induction l as [|ab l IH]; [done|]. cbn [fmap list_fmap omap list_omap]. assert (omap f l.*1 = omap (fun ab => f ab.1) l) as <- by apply IH. done. Qed.
Lemma hyp_exact c x i s : (forall a, 0 <= bal s a) -> enonneg s -> current_index s = i ->
  wp (claim_external_hyp c x) s (fun s' _ => hyp_done c x i s s') top2.
Proof.
  intros Hb Hn Hi. unfold claim_external_hyp. apply wp_bind, wp_gets, wp_bind, claim_module_exact; [apply Hb|].
  assert (claimable s WarpA = claim_at s i WarpA) as -> by (unfold claimable, claim_at; by rewrite Hi).
  intros _. set (y := claim_at s i WarpA) in *. assert (Hy : 0 <= y) by (subst y; unfold claim_at; case_match; lia).
  set (s4 := pay s WarpA y). assert (Es4 : eside s4 = eside s) by apply eside_pay. destruct (eside_parts _ _ Es4) as (P1 & P2 & P3 & P4 & P5 & P6 & P7 & P8).
  assert (B4 : forall a, bal s4 a = bal s a + on a WarpA y - on a YieldA y) by (intros a; subst s4; rewrite bal_pay' by done; done).
  assert (Q4 : forall a, prin s4 a = prin s a) by (intros a; apply untouched_pay).
  assert (K4 : kept s4 = kept s) by apply kept_pay.
  assert (EE : forall k, ext_yield s4 k = ext_yield s k) by (intros; unfold ext_yield; by rewrite P1).
  assert (ER : forall k, retry s4 k = retry s k) by (intros; unfold retry; by rewrite P2).
  assert (F4 : x_inflight (st_world s4) = x_inflight (st_world s)) by (subst s4; unfold pay; destruct (0 <? y); [by rewrite send_from_yield|done]).
  assert (Hnone : (forall id, route_attempt c s i id = None) -> (forall id, route_share c s y id = 0) -> hyp_done c x i s s4).
  { intros H1 H2. assert (H3 : forall id, route_message c x s i id = None) by (intros; unfold route_message; rewrite H1; by case_decide).
    assert (H4 : forall id, external_claim c s i HYPERLANE id = 0) by (intros; rewrite ext_claim_hyp; fold y; rewrite H2; by destruct (d_recipients _ !! _)).
    constructor; try done.
    - intros k. rewrite H4, EE. case_decide; lia.
    - intros k. rewrite H3, H4, ER. repeat case_decide; try done; [by destruct H0|lia].
    - rewrite P6, foldl_none; [done|]. intros m id _. unfold collateral_write. by rewrite H1.
    - rewrite P8, omap_none; [by rewrite app_nil_r|done]. }
  destruct (Z.ltb_spec 0 y) as [Hyp|Hyp]; cbn [negb].
  2:{ apply wp_ret, Hnone.
      - intros id. unfold route_attempt. fold y. repeat case_match; try done. lia.
      - intros id. assert (y = 0) as -> by lia. unfold route_share. by rewrite Z.mul_0_r; destruct (_ <=? 0). }
  apply wp_bind. eapply wp_mono; [apply collect_routes_ok| |done]; cbn beta.
  intros s5 [tot rs] (-> & R1 & R2). cbn [fst snd] in *.
  assert (Htot : tot = sum_routes s (collateral_of c s)).
  { rewrite R2, (routes_collateral _ _ _ _ R1), sum_recipients. rewrite Z.add_0_l. unfold list_sum. f_equal. unfold collateral_of. by rewrite P6. }
  destruct (Z.ltb_spec 0 tot) as [Hpt|Hpt]; cbn [negb].
  2:{ apply wp_ret, Hnone.
      - intros id. unfold route_attempt. fold y. repeat case_match; try done. lia.
      - intros id. unfold route_share. rewrite <- Htot. by rewrite (proj2 (Z.leb_le _ _)) by done. }
  assert (Hn4 : enonneg s4) by (eapply (er_pos True c s), same_rel; done).
  destruct (routes_proper c s4 (recipients_of s HYPERLANE) rs Hn4) with (2 := R1) as [R3 R4].
  { intros id rc Hin%elem_recipients. by rewrite P3. }
  assert (Hcol : forall id, 0 <= collateral_of c s id).
  { intros id. unfold collateral_of. destruct (c_hex c id); [|done]. destruct (x_tokens (st_world s) !! _) eqn:E; [|done]. cbn. by eapply (proj2 Hn). }
  assert (Hsh : forall id, 0 <= route_share c s y id).
  { intros id. unfold route_share. rewrite <- Htot. rewrite (proj2 (Z.leb_gt _ _)) by lia.
    apply Z.div_pos; [|done]. apply Z.mul_nonneg_nonneg; [|done]. apply Z.div_pos; [|done]. apply Z.mul_nonneg_nonneg; [apply Hcol|done]. }
  assert (Hcolh : forall ir h, route_of c s4 ir h -> hr_collateral h = collateral_of c s (hr_id h)).
  { intros ir h (F1 & F2 & F3 & b & F5 & F6). unfold collateral_of. rewrite F5. change (be_decode (drop 24 b)) with (internal_id b). rewrite <- F6. rewrite P6 in F3. by rewrite F3. }
  assert (Hof : forall h, h ∈ rs -> exists ir, route_of c s4 ir h /\ ir ∈ recipients_of s HYPERLANE).
  { intros h Hin. apply elem_of_list_lookup in Hin as [j Hj]. destruct (Forall2_lookup_r _ _ _ _ _ R1 Hj) as (ir & Hir & HR).
    exists ir. split; [done|]. by eapply elem_of_list_lookup_2. }
  eapply wp_mono; [apply (hyp_loop_exact c x tot y (route_share c s y) rs); [rewrite R4; apply nodup_recipients| |done]| |done]; cbn beta.
  { intros h Hin. destruct (Hof h Hin) as (ir & HR & _). rewrite (Hcolh _ _ HR). split; [apply Hcol|]. split; [apply Hsh|].
    intros z Hz. apply portion_exact in Hz; [|apply Hcol|done|lia]. unfold route_share. rewrite <- Htot. by rewrite (proj2 (Z.leb_gt _ _)) by lia. }
  intros s6 [] L.
  assert (Htry : forall ir h, ir ∈ recipients_of s HYPERLANE -> route_of c s4 ir h -> route_try c (route_share c s y) s4 h = route_attempt c s i ir.1).
  { intros [id rc] h Hin (F1 & F2 & F3 & b & F5 & F6). cbn in F1, F2. subst id rc. apply elem_recipients in Hin. cbn [fst].
    unfold route_try, attempt, route_attempt. rewrite Hin, F5, F6, P7, ER, B4. change (internal_id b) with (be_decode (drop 24 b)). fold y. rewrite on_same, on_other by done.
    destruct (c_hex c (hr_recipient h)) as [r|]; [|done]. destruct (x_routers (st_world s) !! be_decode (drop 24 b)) as [[|d [|]]|]; try done.
    change (retry_of s HYPERLANE (hr_id h)) with (retry s (HYPERLANE, hr_id h)). repeat case_decide; try done; lia. }
  assert (Hsent : forall ir h, ir ∈ recipients_of s HYPERLANE -> route_of c s4 ir h -> sent_now x h (route_try c (route_share c s y) s4 h) = route_message c x s i ir.1).
  { intros ir h Hin HR. rewrite (Htry ir h Hin HR). unfold sent_now, route_message. by rewrite (proj1 HR). }
  assert (Hids : forall id, id ∈ hr_id <$> rs <-> is_Some (d_recipients (st_dollar s) !! (HYPERLANE, id))).
  { intros id. rewrite R4, elem_of_list_fmap. split.
    - intros ([id' rc] & -> & Hin%elem_recipients). eauto.
    - intros [rc Hrc]. exists (id, rc). split; [done|by apply elem_recipients]. }
  constructor.
  - rewrite (rs_kept _ _ _ _ _ _ L). done.
  - rewrite (rs_fly _ _ _ _ _ _ L). done.
  - intros a. rewrite (rs_bal _ _ _ _ _ _ L). apply B4.
  - intros a. rewrite (rs_prin _ _ _ _ _ _ L). apply Q4.
  - intros [p id]. rewrite (rs_ext _ _ _ _ _ _ L), EE. cbn [fst snd]. rewrite ext_claim_hyp. fold y. destruct (decide (p = HYPERLANE)) as [->|Hp].
    + destruct (d_recipients (st_dollar s) !! (HYPERLANE, id)) as [rc|] eqn:Erc.
      * rewrite decide_True by (split; [done|apply Hids; eauto]). done.
      * rewrite decide_False; [lia|]. intros [_ Hx%Hids]. rewrite Erc in Hx. by destruct Hx.
    + rewrite decide_False by tauto. done.
  - intros [p id]. cbn [fst snd]. rewrite ext_claim_hyp. fold y. destruct (decide (p = HYPERLANE)) as [->|Hp].
    + destruct (d_recipients (st_dollar s) !! (HYPERLANE, id)) as [rc|] eqn:Erc.
      * pose proof Erc as Hin. apply elem_recipients in Hin. apply elem_of_list_lookup in Hin as [j Hj].
        destruct (Forall2_lookup_l _ _ _ _ _ R1 Hj) as (h & Hh & HR).
        apply elem_of_list_lookup_2 in Hj, Hh. pose proof (proj1 HR) as F1. cbn in F1. subst id. rewrite (rs_retry _ _ _ _ _ _ L h Hh), (Hsent _ _ Hj HR), ER. cbn [fst].
        destruct (route_message c x s i (hr_id h)) as [g|]; [by rewrite decide_True by eauto|].
        rewrite decide_False by (intros [? ?]; done). lia.
      * assert (route_message c x s i id = None) as ->.
        { unfold route_message, route_attempt. rewrite Erc. by case_decide. }
        rewrite decide_False by (intros [? ?]; done). rewrite (rs_other _ _ _ _ _ _ L), ER; [lia|]. cbn. intros [_ Hx%Hids]. rewrite Erc in Hx. by destruct Hx.
    + rewrite (rs_other _ _ _ _ _ _ L), ER; [done|]. cbn. tauto.
  - rewrite (rs_tokens _ _ _ _ _ _ L), P6, foldl_fst. symmetry. apply (foldl_fmap2 (route_of c s4)); [done|].
    intros m ir h HR Hin. rewrite (Htry ir h Hin HR). unfold collateral_write, write_token. destruct (route_attempt c s i ir.1); [|done].
    rewrite (proj1 HR). case_decide; [done|]. rewrite (Hcolh _ _ HR). by rewrite (proj1 HR).
  - rewrite (rs_dispatched _ _ _ _ _ _ L), P8, omap_fst. f_equal. symmetry. apply (omap_fmap2 (route_of c s4)); [done|].
    intros ir h HR Hin. by rewrite (Hsent ir h Hin HR).
Qed.

(** * The vaults *)
Definition kept' (s : state) :=
  (supply s, (d_paused (st_dollar s), current_index s, total_principal s, ds_yield (d_stats (st_dollar s)), d_recipients (st_dollar s)),
   st_portal s, (v_paused (st_vaults s), v_ended (st_vaults s), v_collector (st_vaults s), v_positions (st_vaults s), v_total_flex (st_vaults s), v_stats (st_vaults s)),
   (x_now (st_world s), x_vaas (st_world s), x_posted (st_world s), x_channels (st_world s), x_acked (st_world s), x_routers (st_world s))).
Lemma kept_kept' s s' : kept s' = kept s -> kept' s' = kept' s.
Proof. unfold kept, kept'. intros. congruence. Qed.
Lemma shiftp_tp s y : total_principal (shiftp s y) = total_principal s.
Proof. done. Qed.
Lemma season_one_kept c i s : wp (vaults_yield_season_one c i) s (fun s' _ => kept' s' = kept' s) top2.
Proof.
  unfold vaults_yield_season_one. apply wp_bind, claim_module_spec; [|done]. intros _. set (y := yield_of s FlexibleA).
  apply wp_bind, (claim_staked_spec c _ _ _ _ eq_refl).
  - intros _. apply wp_bind, wp_gets, wp_bind, wp_lift; [|intros e He'; by apply int_add_err in He']. intros z _. apply wp_modify.
    apply (kept_kept' s (pay s FlexibleA y)), kept_pay.
  - intros yp _ _. apply wp_bind, wp_gets, wp_bind, wp_lift; [|intros e He'; by apply int_add_err in He']. intros z _. apply wp_modify.
    apply (kept_kept' s (pay s FlexibleA y)), kept_pay.
  - done.
Qed.
Record season_done (i : Z) (s s' : state) : Prop := {
  sd_kept : kept' s' = kept' s;
  sd_eside : eside s' = eside s;
  sd_bal : forall a, bal s' a = bal s a +
    (if v_ended (st_vaults s) then on a (v_collector (st_vaults s)) (claim_at s i StakedA) - on a YieldA (claim_at s i StakedA)
     else on a FlexibleA (claim_at s i FlexibleA + claim_at s i StakedA) - on a YieldA (claim_at s i FlexibleA + claim_at s i StakedA));
  sd_prin : exists q, (forall a, prin s' a = prin s a - on a StakedA q + on a (if v_ended (st_vaults s) then v_collector (st_vaults s) else FlexibleA) q) /\
    (if v_ended (st_vaults s) then q = ceil_div (claim_at s i StakedA * unit_index) i
     else i <= 10 ^ 18 -> q = floor_div (claim_at s i StakedA * unit_index) i);
  sd_rewards : rewards s' = if v_ended (st_vaults s) then rewards s else <[i := season_record s i]> (rewards s);
  sd_nonneg : forall a, 0 <= bal s' a
}.

Lemma season_one_funds c i s : (forall a, 0 <= bal s a) -> wp (vaults_yield_season_one c i) s (fun s' _ => 0 <= bal s' YieldA) top2.
Proof.
  intros Hb. unfold vaults_yield_season_one. apply wp_bind, claim_module_exact; [apply Hb|]. intros Hle. pose proof (claimable_nonneg s FlexibleA) as Hp.
  set (y := claimable s FlexibleA) in *. set (s1 := pay s FlexibleA y).
  assert (H1 : 0 <= bal s1 YieldA).
  { subst s1. rewrite bal_pay' by done. unfold ind. rewrite decide_False, decide_True by done. pose proof (Hb YieldA). lia. }
  apply wp_bind, (claim_staked_spec c _ _ _ _ eq_refl).
  - intros _. apply wp_bind, wp_gets, wp_bind, wp_lift; [|intros e He'; by apply int_add_err in He']. intros z _. apply wp_modify. exact H1.
  - intros yp Hy _. apply wp_bind, wp_gets, wp_bind, wp_lift; [|intros e He'; by apply int_add_err in He']. intros z _. apply wp_modify.
    change (0 <= bal (send_result s1 YieldA FlexibleA (yield_of s1 StakedA)) YieldA). rewrite bal_send. unfold ind. rewrite decide_True, decide_False by done. lia.
  - done.
Qed.
Lemma claim_at_nonneg s i a : 0 <= claim_at s i a.
Proof. unfold claim_at. case_match; lia. Qed.
Lemma season_exact c i s : (forall a, 0 <= bal s a) -> current_index s = i -> 0 < i ->
  good_collector s ->
  wp (if v_ended (st_vaults s) then vaults_yield_season_two c else vaults_yield_season_one c i) s (fun s' _ => season_done i s s') top2.
Proof.
  intros Hb Hi Hi0 Hcol. pose proof (claim_at_nonneg s i) as Hcn. destruct (v_ended (st_vaults s)) eqn:He.
  - destruct Hcol as [Hu1 Hu2]. set (col := v_collector (st_vaults s)) in *. unfold vaults_yield_season_two. apply wp_bind, claim_module_exact; [apply Hb|].
    assert (claimable s StakedA = claim_at s i StakedA) as -> by (unfold claimable, claim_at; by rewrite Hi).
    specialize (Hcn StakedA). set (y := claim_at s i StakedA) in *. intros Hle. set (s1 := pay s StakedA y).
    assert (B1 : forall a, bal s1 a = bal s a + ind (a = StakedA) y - ind (a = YieldA) y) by (intros; by apply bal_pay').
    assert (P1 : forall a, prin s1 a = prin s a) by (intros; apply untouched_pay).
    assert (I1 : current_index s1 = i) by (rewrite (kept_index s s1); [done|apply kept_pay]).
    assert (H : season_done i s (xfer s1 StakedA col y)).
    { constructor; rewrite ?He; fold col.
      - transitivity (kept' s1); [|apply kept_kept', kept_pay]. unfold xfer. destruct (0 <? y); [|done]. apply kept_kept', kept_send; done.
      - rewrite eside_xfer. apply eside_pay.
      - intros a. rewrite bal_xfer, B1 by done. fold y. unfold ind, on. repeat case_decide; lia.
      - exists (ceil_div (y * unit_index) i). split; [|done]. intros a. rewrite prin_xfer, P1, I1, up_ceil by (done || lia). unfold ind, on. repeat case_decide; lia.
      - assert (Hv1 : st_vaults s1 = st_vaults s) by apply pay_vaults. unfold xfer. destruct (0 <? y); [|unfold rewards; by rewrite Hv1].
        change (rewards s1 = rewards s). unfold rewards. by rewrite Hv1.
      - intros a. rewrite bal_xfer, B1 by done. pose proof (Hb a). unfold ind. repeat case_decide; subst; try done; lia. }
    destruct (Z.ltb_spec 0 y) as [Hy|Hy]; cbn [negb].
    2:{ apply wp_ret. unfold xfer in H. rewrite (proj2 (Z.ltb_ge 0 y)) in H by done. exact H. }
    apply wp_bind, wp_gets, wp_bind, new_coins_spec. intros _.
    assert (v_collector (st_vaults s1) = col) as -> by (unfold s1; by rewrite pay_vaults). apply send_plain_spec; try done.
  - assert (W1 := season_one_exact c i s Hb Hi). assert (W2 := season_one_kept c i s). assert (W3 := season_one_funds c i s Hb).
    assert (W4 : wp (vaults_yield_season_one c i) s (fun s' _ => eside s' = eside s) top2).
    { clear - Hb. unfold vaults_yield_season_one. apply wp_bind, claim_module_spec; [|done]. intros _. set (y := yield_of s FlexibleA).
      apply wp_bind, (claim_staked_spec c _ _ _ _ eq_refl); [..|done].
      + intros _. apply wp_bind, wp_gets, wp_bind, wp_lift; [|intros e He'; by apply int_add_err in He']. intros z _. apply wp_modify. apply eside_pay.
      + intros yp _ _. apply wp_bind, wp_gets, wp_bind, wp_lift; [|intros e He'; by apply int_add_err in He']. intros z _. apply wp_modify. apply eside_pay. }
    eapply wp_mono; [apply (wp_conj _ _ _ _ _ _ (wp_conj _ _ _ _ _ _ W1 W2) (wp_conj _ _ _ _ _ _ W3 W4))| |done]. cbn beta.
    intros s' [] [[(yp & R & B & P & Y) K] [F E]]. constructor; rewrite ?He.
    + done.
    + done.
    + intros a. rewrite B. lia.
    + exists yp. split; [intros a; rewrite P; lia|]. intros Hle. destruct Y as [[-> ->]|[Y1 Y2]].
      * unfold floor_div. by rewrite Z.mul_0_l, Z.div_0_l by lia.
      * apply yield_principal_exact; [lia|done|done].
    + done.
    + intros a. destruct (decide (a = YieldA)) as [->|Ha]; [done|]. rewrite B, (on_other a YieldA) by done. pose proof (Hb a). pose proof (Hcn FlexibleA). pose proof (Hcn StakedA).
      unfold on. case_decide; lia.
Qed.

(** * The identifiers with a recipient, in order *)
Lemma string_compare_le a b : string_le a b <-> String.compare a b <> Gt.
Proof. unfold string_le, string_leb, String.leb. destruct (String.compare a b); naive_solver. Qed.
Lemma string_le_cons x y a b : string_le (String x a) (String y b) <->
  (Ascii.N_of_ascii x < Ascii.N_of_ascii y)%N \/ x = y /\ string_le a b.
Proof.
  rewrite !string_compare_le. cbn [String.compare]. unfold Ascii.compare. destruct (N.compare_spec (Ascii.N_of_ascii x) (Ascii.N_of_ascii y)) as [E|E|E].
  - apply (f_equal Ascii.ascii_of_N) in E. rewrite !Ascii.ascii_N_embedding in E. subst. split; [tauto|]. intros [?|[_ ?]]; [lia|done].
  - split; [by left|done].
  - split; [done|]. intros [?|[-> _]]; lia.
Qed.
Global Instance string_le_trans : Transitive string_le.
Proof.
  intros a. induction a as [|x a IH]; intros b c H1 H2.
  - rewrite string_compare_le. by destruct c.
  - destruct b as [|y b]; [done|]. destruct c as [|z c]; [done|]. rewrite string_le_cons in *.
    destruct H1 as [H1|[-> H1]], H2 as [H2|[-> H2]]; [left; lia|by left|by left|right]. split; [done|]. by apply IH with b.
Qed.
Global Instance string_le_total : Total string_le.
Proof.
  intros a. induction a as [|x a IH]; intros b.
  - left. rewrite string_compare_le. by destruct b.
  - destruct b as [|y b]; [right; by rewrite string_compare_le|]. rewrite !string_le_cons.
    destruct (N.lt_trichotomy (Ascii.N_of_ascii x) (Ascii.N_of_ascii y)) as [H|[H|H]]; [by left; left| |by right; left].
    apply (f_equal Ascii.ascii_of_N) in H. rewrite !Ascii.ascii_N_embedding in H. subst y. destruct (IH b); auto.
Qed.
Lemma identifiers_of s p : identifiers s p (recipients_of s p).*1.
Proof.
  split; [|split; [apply nodup_recipients|]].
  - unfold recipients_of. set (l := omap _ _).
    assert (H : StronglySorted skey_le (merge_sort skey_le l)).
    { apply StronglySorted_merge_sort; [intros a b c; unfold skey_le; apply string_le_trans|intros a b; apply string_le_total]. }
    clearbody l. induction H as [|a k H IH Ha]; [constructor|]. cbn. constructor; [done|]. by rewrite Forall_fmap.
  - intros id. rewrite elem_of_list_fmap. split.
    + intros ([id' rc] & -> & Hin%elem_recipients). eauto.
    + intros [rc Hrc]. exists (id, rc). split; [done|by apply elem_recipients].
Qed.

(** * The whole update *)
Lemma list_sum_zero {A} (f : A -> Z) l : (forall z, z ∈ l -> f z = 0) -> list_sum f l = 0.
Proof. induction l as [|z l IH]; intros H; [done|]. rewrite list_sum_cons, IH, H; [done|by left|]. intros. apply H. by right. Qed.
Lemma list_sum_on {A} (f : A -> Z) (b : A -> addr) a l : (forall z, z ∈ l -> b z <> a) -> list_sum (fun z => on a (b z) (f z)) l = 0.
Proof. intros H. apply list_sum_zero. intros z Hz. apply on_other. specialize (H z Hz). congruence. Qed.
Lemma recipients_same s s' p : d_recipients (st_dollar s') = d_recipients (st_dollar s) -> recipients_of s' p = recipients_of s p.
Proof. intros H. unfold recipients_of. by rewrite H. Qed.
Lemma update_exact c x i s d : good_collector s -> solid s -> enonneg s -> 0 < current_index s ->
  (v_ended (st_vaults s) = true -> bystander (v_collector (st_vaults s))) ->
  wp (update_index c x i) (consume s d) (fun s' _ => index_effect c x s s' i d) top2.
Proof.
  intros Hgc Hs Hn Hpos Hcol. pose proof (solid_supply _ Hs) as Hs0. destruct Hs as [_ Hb].
  set (s0 := consume s d). unfold update_index, get_index. apply wp_bind, wp_gets.
  change (current_index s0) with (current_index s). destruct (Z.leb_spec i (current_index s)) as [|Hlt]; [by apply wp_fail|].
  assert (Hi0 : 0 < i) by lia.
  apply wp_bind, (accrue_spec i s0 _ _ _ eq_refl); [apply (Hb ModuleA)| |done]. intros Hn0.
  change (total_principal s0) with (total_principal s) in *. change (supply s0) with (supply s) in *.
  set (n := present _ _ - _) in *. set (s1 := accrued s0 i n n) in *.
  assert (Hnm : n = index_minted s i).
  { unfold index_minted. rewrite <- quot_max; [done|]. change (Z.quot (total_principal s * i) e12) with (present (total_principal s) i). subst n. lia. }
  destruct (frame_accrued s0 i n n) as (A1 & A2 & A3 & _ & A5 & A6 & A7 & A8 & A9 & A10 & A11 & A12). fold s1 in A1, A2, A3, A5, A6, A7, A8, A9, A10, A11, A12.
  assert (AB : forall a, bal s1 a = bal s a + on a YieldA n) by (intros a; subst s1; rewrite bal_accrued by done; done).
  assert (AS : supply s1 = supply s + n) by (subst s1; rewrite supply_accrued by done; done).
  assert (AP : forall a, prin s1 a = prin s a) by (intros; transitivity (prin s0 a); [apply prin_accrued|done]).
  assert (AC : forall a, a <> YieldA -> claim_at s1 i a = claim_at s i a) by (intros a Ha; unfold claim_at; by rewrite AP, AB, on_other, Z.add_0_r).
  apply wp_bind, wp_gets. apply wp_bind. eapply wp_mono; [apply (season_exact c i s1); [|done|done|]| |done]; cbn beta.
  { intros a. rewrite AB. pose proof (Hb a). unfold on. case_decide; lia. }
  { unfold good_collector. rewrite A11. exact Hgc. }
  intros s2 [] D2. pose proof (sd_nonneg _ _ _ D2) as Hb2.
  assert (D2b := sd_bal _ _ _ D2). assert (D2p := sd_prin _ _ _ D2). assert (D2r := sd_rewards _ _ _ D2).
  rewrite A11 in D2b, D2p, D2r. rewrite !AC in D2p by done.
  change (v_ended (st_vaults s0)) with (v_ended (st_vaults s)) in *. change (v_collector (st_vaults s0)) with (v_collector (st_vaults s)) in *.
  destruct D2p as (q & D2p & D2q).
  assert (K2 : kept' s2 = kept' s1) by apply D2. unfold kept' in K2.
  assert (I2 : current_index s2 = i) by (rewrite <- A1; congruence).
  destruct (eside_parts _ _ (sd_eside _ _ _ D2)) as (E1 & E2 & E3 & E4 & E5 & E6 & E7 & E8). rewrite A6 in E1. rewrite A7 in E2. rewrite A9 in E3. rewrite A12 in E4, E5, E6, E7, E8.
  change (d_recipients (st_dollar s0)) with (d_recipients (st_dollar s)) in E3. change (x_inflight (st_world s0)) with (x_inflight (st_world s)) in E4.
  change (x_tokens (st_world s0)) with (x_tokens (st_world s)) in E6. change (x_routers (st_world s0)) with (x_routers (st_world s)) in E7.
  change (x_dispatched (st_world s0)) with (x_dispatched (st_world s)) in E8.
  assert (R2 : forall k, retry s2 k = retry s k) by (intros; unfold retry; by rewrite E2).
  assert (X2 : forall k, ext_yield s2 k = ext_yield s k) by (intros; unfold ext_yield; by rewrite E1).
  assert (Hn2 : enonneg s2).
  { destruct Hn as [N1 N2]. split; [intros; rewrite R2; apply N1|]. intros t v. rewrite E6. apply N2. }
  assert (HB2 : forall a, a <> FlexibleA -> a <> YieldA -> (v_ended (st_vaults s) = true -> a <> v_collector (st_vaults s)) -> bal s2 a = bal s a).
  { intros a H1 H2 H3. rewrite D2b, AB, !(on_other a YieldA) by done. destruct (v_ended (st_vaults s)); rewrite on_other; auto; lia. }
  assert (HP2 : forall a, a <> StakedA -> a <> FlexibleA -> (v_ended (st_vaults s) = true -> a <> v_collector (st_vaults s)) -> prin s2 a = prin s a).
  { intros a H1 H2 H3. rewrite D2p, AP, (on_other a StakedA) by done. destruct (v_ended (st_vaults s)); rewrite on_other; auto; lia. }
  assert (Hnc : forall a, ~ bystander a -> v_ended (st_vaults s) = true -> a <> v_collector (st_vaults s)).
  { intros a Ha He ->. auto. }
  assert (Hw0 : ~ bystander WarpA) by (by intros (_ & ? & _)). assert (He0 : forall ch, ~ bystander (esc ch)) by (intros ch (_ & _ & H); by apply (H ch)).
  assert (HC2 : forall ch, claimable s2 (esc ch) = claim_at s i (esc ch)).
  { intros ch. unfold claimable, claim_at. rewrite HP2, HB2, I2; [done|..]; try done; by apply Hnc. }
  assert (HE2 : forall ch, bal s2 (esc ch) = bal s (esc ch)).
  { intros ch. rewrite HB2; [done|..]; try done; by apply Hnc. }
  unfold claim_external_ibc. apply wp_bind, wp_bind, wp_gets. rewrite (recipients_same s s2) by done.
  set (l := recipients_of s IBC) in *.
  assert (Hl : forall ch, ch ∈ l.*1 <-> is_Some (d_recipients (st_dollar s) !! (IBC, ch))) by apply identifiers_of.
  eapply wp_mono; [apply (ibc_loop_exact c x l); [apply nodup_recipients|done|done|]| |done]; cbn beta.
  { intros [ch rc] Hin%elem_recipients. rewrite E3. cbn. eauto. }
  intros s3 [] (D3 & Hb3 & Hn3). assert (K3 := cs_kept _ _ _ _ _ D3).
  assert (S3 : list_sum (fun cr : string * string => claimable s2 (esc cr.1)) l = sum_channels s (fun ch => claim_at s i (AEscrow transfer_port ch))).
  { rewrite sum_channels_list. apply list_sum_ext. intros cr _. apply HC2. }
  assert (O3 : forall a, list_sum (fun cr : string * string => on a (esc cr.1) (claimable s2 (esc cr.1))) l =
    sum_channels s (fun ch => on a (AEscrow transfer_port ch) (claim_at s i (AEscrow transfer_port ch)))).
  { intros a. rewrite sum_channels_list. apply list_sum_ext. intros cr _. by rewrite HC2. }
  assert (B3 : bal s3 WarpA = bal s WarpA).
  { rewrite (cs_bal _ _ _ _ _ D3), list_sum_on by done. rewrite on_other, HB2 by (done || by apply Hnc). lia. }
  assert (P3 : prin s3 WarpA = prin s WarpA) by (rewrite (cs_prin _ _ _ _ _ D3), HP2 by (done || by apply Hnc); done).
  assert (I3 : current_index s3 = i) by (rewrite <- I2; by apply kept_index).
  assert (Rec3 : d_recipients (st_dollar s3) = d_recipients (st_dollar s)) by (rewrite <- E3; by apply kept_recipients).
  assert (T3 : x_tokens (st_world s3) = x_tokens (st_world s)) by (rewrite (proj1 (cs_tokens _ _ _ _ _ D3)); exact E6).
  assert (Rt3 : x_routers (st_world s3) = x_routers (st_world s)) by (rewrite (kept_routers s2) by done; exact E7).
  assert (Y3 : claim_at s3 i WarpA = claim_at s i WarpA) by (unfold claim_at; by rewrite B3, P3).
  assert (Ry3 : forall id, retry s3 (HYPERLANE, id) = retry s (HYPERLANE, id)).
  { intros id. rewrite (cs_retry _ _ _ _ _ D3), decide_False, R2; [done|]. by intros [? _]. }
  assert (Co3 : forall id, collateral_of c s3 id = collateral_of c s id) by (intros; unfold collateral_of; by rewrite T3).
  assert (Su3 : sum_routes s3 (collateral_of c s3) = sum_routes s (collateral_of c s)).
  { rewrite !sum_recipients, (recipients_same s s3) by done. apply list_sum_ext. intros. apply Co3. }
  assert (Sh3 : forall y id, route_share c s3 y id = route_share c s y id) by (intros; unfold route_share; by rewrite Su3, Co3).
  assert (At3 : forall id, route_attempt c s3 i id = route_attempt c s i id).
  { intros id. unfold route_attempt. rewrite Y3, Su3, Sh3, Rec3, Rt3, B3. change (retry_of s3 HYPERLANE id) with (retry s3 (HYPERLANE, id)). by rewrite Ry3. }
  assert (Me3 : forall id, route_message c x s3 i id = route_message c x s i id) by (intros; unfold route_message; by rewrite At3).
  assert (Ex3 : forall id, external_claim c s3 i HYPERLANE id = external_claim c s i HYPERLANE id) by (intros; rewrite !ext_claim_hyp; by rewrite Rec3, Y3, Sh3).
  eapply wp_mono; [apply (hyp_exact c x i s3); done| |done]; cbn beta. intros s4 [] D4. assert (K4 := hd_kept _ _ _ _ _ D4).
  assert (K : kept s4 = kept s2) by congruence.
  assert (V4 : st_vaults s4 = st_vaults s2) by (unfold kept in K; congruence).
  constructor.
  - split; [done|]. rewrite <- I2. by apply kept_index.
  - rewrite <- Hnm. split; [done|]. assert (supply s4 = supply s1 /\ ds_yield (d_stats (st_dollar s4)) = ds_yield (d_stats (st_dollar s1))) as [-> ->] by (unfold kept in K; split; congruence).
    split; [done|]. exact A5.
  - intros a. rewrite (hd_bal _ _ _ _ _ D4), Y3, (cs_bal _ _ _ _ _ D3), S3, O3, D2b, AB. rewrite !AC by done. rewrite <- Hnm.
    unfold index_received, index_claims. destruct (v_ended (st_vaults s)); unfold on; repeat case_decide; lia.
  - exists q. split; [|exact D2q]. intros a. rewrite (hd_prin _ _ _ _ _ D4), (cs_prin _ _ _ _ _ D3), D2p, AP. done.
  - assert (total_principal s4 = total_principal s1) as -> by (unfold kept in K; congruence). exact A3.
  - assert (d_paused (st_dollar s4) = d_paused (st_dollar s1) /\ d_recipients (st_dollar s4) = d_recipients (st_dollar s1) /\ st_portal s4 = st_portal s1) as (-> & -> & ->)
      by (unfold kept in K; split_and!; congruence). done.
  - rewrite V4. unfold rewards in D2r. rewrite A11 in D2r. unfold season_record in D2r. rewrite A11, !AC in D2r by done.
    change (st_vaults s0) with (st_vaults s) in *.
    assert (st_vaults s2 = mk_vaults (v_paused (st_vaults s2)) (v_ended (st_vaults s2)) (v_collector (st_vaults s2)) (v_positions (st_vaults s2)) (v_total_flex (st_vaults s2)) (v_rewards (st_vaults s2)) (v_stats (st_vaults s2))) as -> by by destruct (st_vaults s2).
    rewrite D2r. f_equal; rewrite <- A11; congruence.
  - intros p id. change (ext_yield s4 (p, id) = ext_yield s (p, id) + external_claim c s i p id).
    rewrite (hd_ext _ _ _ _ _ D4), (cs_ext _ _ _ _ _ D3), X2. cbn [fst snd]. destruct (decide (p = HYPERLANE)) as [->|Hp].
    + rewrite decide_False by (by intros [? _]). rewrite Ex3. lia.
    + destruct (decide (p = IBC /\ id ∈ l.*1)) as [[-> Hin]|Hno].
      * rewrite HC2. apply Hl in Hin as [rc Hrc]. unfold external_claim. rewrite Hrc, decide_True by done. unfold esc. lia.
      * assert (external_claim c s i p id = 0) as ->; [|lia]. unfold external_claim. destruct (d_recipients (st_dollar s) !! (p, id)) eqn:Erc; [|done].
        destruct (decide (p = IBC)) as [->|]; [|by rewrite decide_False]. exfalso. apply Hno. split; [done|]. apply Hl. eauto.
  - intros p id. change (retry s4 (p, id) = if external_leaves c x s i p id then 0 else retry s (p, id) + external_claim c s i p id).
    rewrite (hd_retry _ _ _ _ _ D4). cbn [fst snd]. destruct (decide (p = HYPERLANE)) as [->|Hp].
    + unfold external_leaves. rewrite (decide_False (P := HYPERLANE = IBC)), (decide_True (P := HYPERLANE = HYPERLANE)) by done.
      rewrite Me3, Ry3, Ex3. destruct (route_message c x s i id) as [g|]; [by rewrite decide_True by eauto|].
      rewrite decide_False by (by intros [? ?]). rewrite bool_decide_eq_false_2 by (by intros [? ?]). done.
    + rewrite (cs_retry _ _ _ _ _ D3). cbn [fst snd]. rewrite HC2, HE2, R2. unfold external_leaves. destruct (decide (p = IBC)) as [->|Hpi].
      * unfold channel_packet, external_claim. fold (esc id). change (retry_of s IBC id) with (retry s (IBC, id)).
        destruct (d_recipients (st_dollar s) !! (IBC, id)) as [rc|] eqn:Erc.
        -- rewrite (decide_True (P := IBC = IBC /\ id ∈ l.*1)) by (split; [done|apply Hl; eauto]). rewrite (decide_True (P := IBC = IBC)) by done.
           destruct (decide (o_ibc x id = XOk /\ 0 < claim_at s i (esc id) + retry s (IBC, id) <= bal s (esc id) + claim_at s i (esc id))) as [Hd|Hd].
           ++ rewrite bool_decide_eq_true_2 by eauto. done.
           ++ rewrite bool_decide_eq_false_2 by (by intros [? ?]). lia.
        -- rewrite bool_decide_eq_false_2 by (by intros [? ?]). rewrite decide_False; [lia|]. intros [_ Hx%Hl]. rewrite Erc in Hx. by destruct Hx.
      * rewrite decide_False by tauto. assert (external_claim c s i p id = 0) as ->; [|rewrite (decide_False (P := p = HYPERLANE)) by done; lia].
        unfold external_claim. destruct (d_recipients (st_dollar s) !! (p, id)); [|done]. by rewrite !decide_False.
  - exists l.*1, (recipients_of s HYPERLANE).*1. split; [apply identifiers_of|]. split; [apply identifiers_of|].
    assert (st_world s4 = mk_world (x_now (st_world s4)) (x_vaas (st_world s4)) (x_posted (st_world s4)) (x_channels (st_world s4)) (x_inflight (st_world s4))
      (x_acked (st_world s4)) (x_tokens (st_world s4)) (x_routers (st_world s4)) (x_dispatched (st_world s4))) as -> by by destruct (st_world s4).
    rewrite (hd_fly _ _ _ _ _ D4), (cs_fly _ _ _ _ _ D3), E4, (hd_tokens _ _ _ _ _ D4), T3, (hd_dispatched _ _ _ _ _ D4), (proj2 (cs_tokens _ _ _ _ _ D3)), E8.
    rewrite (recipients_same s s3) by done.
    assert (Hw : (x_now (st_world s4), x_vaas (st_world s4), x_posted (st_world s4), x_channels (st_world s4), x_acked (st_world s4), x_routers (st_world s4)) =
      (x_now (st_world s0), x_vaas (st_world s0), x_posted (st_world s0), x_channels (st_world s0), x_acked (st_world s0), x_routers (st_world s0))).
    { rewrite <- A12. unfold kept in K. congruence. }
    injection Hw as -> -> -> -> -> ->. f_equal.
    + f_equal. rewrite omap_fst. apply omap_ext'. intros [ch rc] Hin%elem_recipients. cbn [fst snd]. rewrite HC2, HE2, R2. unfold channel_packet. rewrite Hin. done.
    + apply foldl_ext'. intros m id _. unfold collateral_write. by rewrite At3, Co3.
    + f_equal. apply omap_ext'. intros id _. apply Me3.
Qed.
Theorem index_update_applied c s s' x bz i : chain_ok c -> reachable c s ->
  (v_ended (st_vaults s) = true -> bystander (v_collector (st_vaults s))) ->
  carried_index c bz = Some i -> exec c (OpDeliver x bz) s = Ok s' tt ->
  exists v, c_vaa c bz = Some v /\ index_effect c x s s' i (va_digest v).
Proof.
  intros Hc Hr Hcol Hi E. destruct (winv_reachable _ _ Hc Hr) as [Hw _]. pose proof (solid_reachable _ _ Hc Hr) as Hs.
  change (deliver c x bz s = Ok s' tt) in E. apply deliver_calls in E as (v & pl & Ha & H). exists v. split; [apply Ha|].
  unfold carried_index in Hi. rewrite (carried_eq _ _ _ _ _ Ha) in Hi.
  unfold handle_payload, bind, lift in H. destruct (get_payload_type pl) as [[]| |]; try discriminate.
  destruct (decode_index_payload pl) as [[i' ch]| |]; try discriminate. injection Hi as ->. cbn [fst snd] in H. destruct (negb _); [done|].
  refine (wp_ok _ _ _ _ _ _ (update_exact c x i s (va_digest v) (wf_coll _ _ Hw) Hs _ _ Hcol) H); [by apply (einv_reachable c)|apply (wf_index _ _ Hw)].
Qed.

Lemma issued_effect s r z : 0 <= z -> r <> ModuleA -> 0 < current_index s -> issue_effect s (issued s r z) r z.
Proof.
  intros Hz Hr Hi. destruct (frame_issued s r z) as (F1 & F2 & F3 & F4 & F5 & F6 & F7 & F8 & F9). constructor; auto 10.
  - intros a. rewrite bal_issued by done. by rewrite on_ind.
  - by apply supply_issued.
  - intros a. rewrite UserP.prin_issued by done. case_decide; [done|]. rewrite on_ind. by rewrite down_floor by (lia || done).
  - by apply tp_issued'.
Qed.
Theorem token_update_applied c s s' x bz t : chain_ok c -> reachable c s ->
  carried_token c bz = Some t -> current_index s < tk_index t ->
  claims_unblocked c -> routes_usable c s -> update_in_range c s ->
  (v_ended (st_vaults s) = true -> bystander (v_collector (st_vaults s))) ->
  supply s <= floor_div (total_principal s * tk_index t) unit_index ->
  index_claims s (tk_index t) <= bal s YieldA + (floor_div (total_principal s * tk_index t) unit_index - supply s) ->
  exec c (OpDeliver x bz) s = Ok s' tt ->
  exists v s1, c_vaa c bz = Some v /\ index_effect c x s s1 (tk_index t) (va_digest v) /\
    issue_effect s1 s' (c_acct c (sl_bytes (tk_recipient t))) (tk_amount t).
Proof.
  intros Hc Hr HT Hlt Hub Hu Hrange Hcol Hsup Hcl E. destruct (winv_reachable _ _ Hc Hr) as [Hw _]. pose proof (solid_reachable _ _ Hc Hr) as Hs.
  destruct (einv_reachable _ _ Hc Hr) as (_ & _ & Hn). pose proof (wf_index _ _ Hw) as Hidx.
  change (deliver c x bz s = Ok s' tt) in E. apply deliver_calls in E as (v & pl & Ha & H). exists v.
  unfold carried_token in HT. rewrite (carried_eq _ _ _ _ _ Ha) in HT.
  unfold handle_payload, bind, lift in H. destruct (get_payload_type pl) as [[]| |]; try discriminate.
  destruct (decode_token_payload pl) as [t'| |] eqn:Et; try discriminate. injection HT as ->. apply decode_token_lt in Et.
  destruct (negb _); [done|]. destruct (negb _); [done|]. set (s0 := consume s (va_digest v)) in *. set (r := c_acct c _) in *.
  assert (R : runs (update_index c x (tk_index t)) s0 (fun _ _ => True)).
  { apply update_run; auto; try done.
    - destruct Hw. constructor; auto.
    - intros He. destruct (Hcol He) as (_ & C1 & C2). change (v_collector (st_vaults s0)) with (v_collector (st_vaults s)). intros [?|[ch ?]]; [done|by apply (C2 ch)].
    - destruct Hrange. constructor; auto. }
  apply runs_ok in R as (s1 & [] & R & _).
  assert (D : index_effect c x s s1 (tk_index t) (va_digest v)).
  { refine (wp_ok _ _ _ _ _ _ (update_exact c x (tk_index t) s (va_digest v) (wf_coll _ _ Hw) Hs Hn _ Hcol) R). lia. }
  exists s1. split; [apply Ha|]. split; [done|].
  unfold mint in H. unfold bind at 1, try in H. rewrite R in H. revert H.
  apply (wp_ok _ _ (fun s' _ => issue_effect s1 s' r (tk_amount t)) top2). apply issue_spec.
  - rewrite (ia_balance _ _ _ _ _ _ D), (on_other ModuleA YieldA) by done. pose proof (proj2 Hs ModuleA).
    assert (0 <= index_received s (tk_index t) ModuleA); [|lia]. unfold index_received.
    rewrite sum_channels_list, list_sum_on by done. rewrite (on_other ModuleA WarpA), (on_other ModuleA FlexibleA) by done.
    destruct (v_ended (st_vaults s)) eqn:He; [|lia]. destruct (wf_coll _ _ Hw) as [G1 _]. rewrite on_other by congruence. lia.
  - apply Hc.
  - intros H0 _ Hne. apply issued_effect; [done|done|]. rewrite (proj2 (ia_index _ _ _ _ _ _ D)). lia.
Qed.
