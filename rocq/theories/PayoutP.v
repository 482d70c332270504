(** What a withdrawal from the flexible vault pays. *)
From Verif Require Export FlexP.

(** * Exact payouts *)
Lemma nearest_eq z : 0 <= z -> dec_chop_round z = nearest z.
Proof.
  intros H. unfold dec_chop_round, nearest. rewrite Z.abs_eq by done. rewrite (proj2 (Z.ltb_ge z 0)) by done. change (10 ^ 18) with e18.
  assert (Hh : e18 / 2 * 2 = e18) by reflexivity. set (h := e18 / 2) in *. cbn zeta. set (r := z mod e18).
  clearbody h. destruct (Z.ltb_spec r h), (Z.ltb_spec (2 * r) e18); try lia; try done.
  destruct (Z.ltb_spec h r), (Z.ltb_spec e18 (2 * r)); try lia; done.
Qed.
Lemma ur_share r ap : open_record r = true -> 0 <= ap -> ur r ap = reward_share r ap.
Proof.
  unfold open_record, ur, reward_share. intros [Ht Hr]%andb_prop Ha. apply Z.ltb_lt in Ht, Hr.
  assert (HN : Z.quot (rw_rewards r * e18 * e18 * e18) (rw_total r * e18) = rw_rewards r * 10 ^ 36 / rw_total r).
  { rewrite Z.quot_mul_cancel_r by (try done; lia). rewrite Z.quot_div_nonneg by (unfold e18; lia).
    by replace (rw_rewards r * e18 * e18) with (rw_rewards r * 10 ^ 36) by (unfold e18; lia). }
  rewrite HN. set (N := rw_rewards r * 10 ^ 36 / rw_total r). assert (0 <= N) by (apply Z.div_pos; lia).
  rewrite <- nearest_eq by done. destruct (chop_bounds N ltac:(done)) as [H0 _].
  rewrite Z.quot_div_nonneg; [done|by apply Z.mul_nonneg_nonneg|done].
Qed.
Lemma rpay_record ci ap r : 0 <= ap -> rpay ci ap r = record_pays ci ap r.
Proof.
  intros H. unfold rpay, record_pays. change (live r) with (open_record r). destruct (open_record r) eqn:E; [|done]. cbn [andb].
  destruct (negb _); [|done]. by apply ur_share.
Qed.
Lemma rsettle_record ci ap r : 0 <= ap -> rsettle ci ap r = record_left ci ap r.
Proof. intros H. unfold rsettle, record_left. change (live r) with (open_record r). by rewrite rpay_record. Qed.
Lemma settle_records ci ap e m : 0 <= ap -> settle_map ci ap e m = records_left ci e ap m.
Proof.
  intros H. unfold settle_map, records_left. apply map_eq. intros k. rewrite !map_lookup_imap. destruct (m !! k); [|done]. cbn.
  by rewrite rsettle_record.
Qed.
Lemma rsum_records ci ap e m : 0 <= ap -> rsum ci ap e m = records_due ci e ap m.
Proof.
  intros H. change (records_due ci e ap m) with (fsum (fun k r => if e <? k then record_pays ci ap r else 0) m).
  unfold rsum. apply fsum_ext. intros k r _. by rewrite rpay_record.
Qed.

(** One position. *)
Record step_paid (c : config) (a : addr) (p : position) (part : Z) (s s' : state) : Prop := {
  sp_index : current_index s' = current_index s;
  sp_rewards : rewards s' = if 0 <? prin s FlexibleA then records_left (current_index s) (pos_index p) (down part (pos_index p)) (rewards s) else rewards s;
  sp_rest : let h := vault_account c FLEXIBLE a (pos_time p) in
    let r := if 0 <? prin s FlexibleA then records_due (current_index s) (pos_index p) (down part (pos_index p)) (rewards s) else 0 in
    let y := claimable s h in 0 <= r /\ 0 <= y /\
    (forall x, bal s' x = bal s x + ind (x = a) (part + r + y) - ind (x = FlexibleA) r - ind (x = YieldA) y - ind (x = h) part) /\
    (forall x, prin s' x = prin s x + ind (x = a) (up r (current_index s) + up (part + y) (current_index s))
       - ind (x = FlexibleA) (up r (current_index s)) - ind (x = h) (up (part + y) (current_index s))) /\
    distributed s' = distributed s + r /\
    v_total_flex (st_vaults s') = v_total_flex (st_vaults s) - down part (pos_index p)
}.
Lemma claimable_yield_of s a : 0 <= bal s a -> int_fits (prin s a * current_index s) = true -> yield_of s a = claimable s a.
Proof.
  intros Hb Hf. rewrite claimable_present by done. unfold yield_of. cbn zeta. set (p := present (prin s a) (current_index s)).
  assert (Hp : Z.abs p < 2 ^ 256).
  { unfold int_fits in Hf. apply Z.ltb_lt in Hf. subst p. unfold present. set (z := prin s a * current_index s) in *. unfold e12. clearbody z. lia. }
  clearbody p. destruct (Z.ltb_spec 1 (p - bal s a)); [|by rewrite andb_false_r]. rewrite andb_true_r.
  assert (int_fits (p - bal s a) = true) as ->; [|done]. apply Z.ltb_lt. lia.
Qed.
Lemma up_zero i : 0 < i -> up 0 i = 0.
Proof. intros H. rewrite up_ceil by lia. unfold ceil_div. cbn. by rewrite Z.div_0_l by lia. Qed.
Lemma prin_xfer s f t y x : f <> YieldA -> t <> YieldA -> f <> ModuleA -> t <> ModuleA -> 0 <= y -> 0 < current_index s ->
  prin (xfer s f t y) x = prin s x - ind (x = f) (up y (current_index s)) + ind (x = t) (up y (current_index s)).
Proof.
  intros ? ? ? ? Hy Hi. unfold xfer. destruct (Z.ltb_spec 0 y).
  - by rewrite prin_send.
  - assert (y = 0) as -> by lia. rewrite up_zero by done. unfold ind. repeat case_decide; lia.
Qed.
Lemma settled_eq s p part m r : 0 <= down part (pos_index p) -> settled s p part m r ->
  m = (if 0 <? prin s FlexibleA then records_left (current_index s) (pos_index p) (down part (pos_index p)) (rewards s) else rewards s) /\
  r = (if 0 <? prin s FlexibleA then records_due (current_index s) (pos_index p) (down part (pos_index p)) (rewards s) else 0).
Proof.
  intros Ha [Hz|Hz].
  - by rewrite (proj2 (Z.ltb_ge 0 _)).
  - rewrite (proj2 (Z.ltb_lt 0 _)) by done. by rewrite settle_records, rsum_records.
Qed.
Lemma unl1_exact c g b p part s s' : codec_ok c -> c_dec c g = Some (AUser b) -> 0 < current_index s -> 0 <= bal s (vault_account c FLEXIBLE (AUser b) (pos_time p)) ->
  0 <= part -> 0 < pos_index p ->
  unl1 g (AUser b) FLEXIBLE p part s s' -> step_paid c (AUser b) p part s s'.
Proof.
  intros Hc Hd Hi Hbal Hpart Hpi H.
  destruct (unl1_frame _ _ _ _ _ _ _ H) as (_ & _ & _ & _ & Htf & _). cbn [Z.eqb Pos.eqb] in Htf. change (FLEXIBLE =? FLEXIBLE) with true in Htf. cbn iota in Htf.
  destruct (unl1_rewards c g b p part s s' Hc Hd H) as (rew & y & [F1 F2 F3] & HS & HD & HI & HY).
  inversion H as [Hn|s2 rew2 y2 _ Hrw Hy Hy1 Hp Hfit]; [done|]. subst s'. unfold pacct in *.
  rewrite (posacct c g (AUser b)) in * by done. set (h := vault_account c FLEXIBLE (AUser b) (pos_time p)) in *.
  destruct (flex_account_not c (AUser b) (pos_time p)) as (N1 & N2 & N3 & N4 & N5 & _ & N6 & _). fold h in N1, N2, N3, N4, N5, N6.
  assert (Hap : 0 <= down part (pos_index p)).
  { rewrite down_floor by done. unfold floor_div. apply Z.div_pos; [|done]. change unit_index with e12. unfold e12. lia. }
  set (ap := down part (pos_index p)) in *.
  assert (H2 : rew2 = rew /\ current_index s2 = current_index s /\
    (forall x, bal s2 x = bal s x + ind (x = AUser b) rew - ind (x = FlexibleA) rew) /\
    (forall x, prin s2 x = prin s x - ind (x = FlexibleA) (up rew (current_index s)) + ind (x = AUser b) (up rew (current_index s)))).
  { inversion Hrw as [Hz|tot Hp1 Ht Ht0 Ht1]; subst.
    - inversion HS as [Hz'|Hz']; subst; [|change (prin (sub_flex s ap) FlexibleA) with (prin s FlexibleA) in Hz; lia].
      split; [done|]. split; [done|]. split; intros x.
      + change (bal (sub_flex s ap) x) with (bal s x). unfold ind. repeat case_decide; lia.
      + change (prin (sub_flex s ap) x) with (prin s x). rewrite up_zero by done. unfold ind. repeat case_decide; lia.
    - change (prin (sub_flex s ap) FlexibleA) with (prin s FlexibleA) in Hp1. inversion HS as [Hz'|Hz']; [lia|].
      change (current_index (sub_flex s ap)) with (current_index s) in *. change (v_rewards (st_vaults (sub_flex s ap))) with (v_rewards (st_vaults s)) in *.
      fold ap. split; [done|]. unfold rewarded. set (tot := rsum _ _ _ (v_rewards (st_vaults s))) in *.
      change (v_rewards (st_vaults (sub_flex s ap))) with (v_rewards (st_vaults s)). fold tot.
      split; [unfold xfer; by case_match|]. split; intros x.
      + rewrite bal_xfer by done. match goal with |- bal ?z x + _ - _ = _ => change (bal z x) with (bal s x) end. done.
      + rewrite prin_xfer by done. match goal with |- prin ?z x - ind _ (up _ ?i) + _ = _ => change (prin z x) with (prin s x); change i with (current_index s) end. done. }
  destruct H2 as (-> & HI2 & HB2 & HP2).
  assert (Hbh : bal s2 h = bal s h) by (rewrite HB2; unfold ind; rewrite !decide_False by done; lia).
  assert (Hph : prin s2 h = prin s h) by (rewrite HP2; unfold ind; rewrite !decide_False by done; lia).
  assert (Hcl : y2 = claimable s h).
  { subst y2. rewrite <- claimable_yield_of; [|apply Hbal|by rewrite <- Hph, <- HI2]. unfold yield_of.
    change (prin (add_dist s2 rew) h) with (prin s2 h). change (bal (add_dist s2 rew) h) with (bal s2 h). change (current_index (add_dist s2 rew)) with (current_index s2).
    by rewrite Hph, Hbh, HI2. }
  assert (Hyy : y = y2).
  { rewrite HY, Hcl. apply claimable_yield_of; [exact Hbal|by rewrite <- Hph, <- HI2]. }
  clear Hy HY. subst y.
  destruct (settled_eq _ _ _ _ _ Hap HS) as [HM HR]. fold ap in HM, HR.
  constructor; [exact HI|exact HM|].
  cbn zeta. fold h ap. rewrite <- HR, <- Hcl. split; [done|]. split; [done|]. split; [exact F3|]. split; [|split; [exact HD|exact Htf]].
    intros x. match goal with |- prin (upos ?z _ _ _ _ _) x = _ => change (prin (upos z (AUser b) FLEXIBLE p part ap) x) with (prin z x) end.
    rewrite prin_send by done.
    assert (E1 : current_index (pay (add_dist s2 rew) h y2) = current_index s) by (rewrite <- HI2; unfold pay; destruct (0 <? y2); [by rewrite index_send|done]).
    assert (E2 : prin (pay (add_dist s2 rew) h y2) x = prin s2 x).
    { unfold pay. destruct (0 <? y2); [by rewrite prin_pay|done]. }
    rewrite E1, E2, HP2. unfold ind. repeat case_decide; lia.
Qed.

(** All positions touched. *)
Definition matched (s0 : state) (a : addr) (q : payout) (s : state) : Prop :=
  current_index s = current_index s0 /\ rewards s = po_records q /\ prin s FlexibleA = po_vault q /\ prin s a = po_user q /\
  bal s a = bal s0 a + po_stake q + po_rewards q + po_yield q /\
  bal s FlexibleA = bal s0 FlexibleA - po_rewards q /\ bal s YieldA = bal s0 YieldA - po_yield q /\
  distributed s = distributed s0 + po_rewards q /\ v_total_flex (st_vaults s) = v_total_flex (st_vaults s0) - po_principal q.
Lemma unls_payout c g b s0 s' : codec_ok c -> c_dec c g = Some (AUser b) -> 0 < current_index s0 ->
  let a := AUser b in
  forall l rem s1 rem' d q, in_map (v_positions (st_vaults s1)) a FLEXIBLE l -> StronglySorted Z.lt (pos_time <$> l) -> 0 <= rem ->
  (forall p, p ∈ l -> positions s0 !! (a, FLEXIBLE, pos_time p) = Some p /\ 0 < pos_index p /\
     let h := vault_account c FLEXIBLE a (pos_time p) in bal s1 h = bal s0 h /\ prin s1 h = prin s0 h /\ 0 <= bal s0 h) ->
  unls g a FLEXIBLE l rem s1 rem' d s' -> matched s0 a q s1 ->
  exists ts, StronglySorted Z.lt ts /\ (forall t, t ∈ ts -> t ∈ pos_time <$> l) /\
    (forall p, p ∈ l -> pos_time p ∈ ts <-> 0 < part_taken s0 s' a (pos_time p)) /\
    matched s0 a (fold_left (pay_part c s0 s' a) ts q) s' /\
    (forall t, t ∈ ts -> prin s' (vault_account c FLEXIBLE a t) =
       prin s0 (vault_account c FLEXIBLE a t) - principal_of s0 (part_taken s0 s' a t + part_yield c s0 a t)) /\
    (forall z, z <> a -> z <> FlexibleA -> (forall t, t ∈ ts -> z <> vault_account c FLEXIBLE a t) -> prin s' z = prin s1 z) /\
    po_principal (fold_left (pay_part c s0 s' a) ts q) = po_principal q + d.
Proof.
  intros Hc Hd Hi a. induction l as [|p l IH]; intros rem s1 rem' d q Hm Hs Hrem Hl H Hq.
  { inversion H; subst. exists []. split; [constructor|]. split; [by intros t ?%elem_of_nil|]. split; [by intros p ?%elem_of_nil|].
    cbn [fold_left]. split; [done|]. split; [by intros t ?%elem_of_nil|]. split; [done|lia]. }
  inversion H as [|?|? ? ? ? s2 ? ? d' Hne H1 H2]; subst.
  { exists []. split; [constructor|]. split; [by intros t ?%elem_of_nil|]. split.
    - intros p' Hp'. split; [by intros ?%elem_of_nil|]. unfold part_taken, amount_at. destruct (Hl p' Hp') as (E1 & _).
      destruct (proj2 Hm p' Hp') as [E2 _]. fold (positions s') in E2. rewrite E1, E2. lia.
    - cbn [fold_left]. split; [done|]. split; [by intros t ?%elem_of_nil|]. split; [done|lia]. }
  destruct (proj2 Hm p) as [Hp Hpos]; [by left|].
  pose proof (part_pos p rem Hpos Hrem Hne) as [P1 P2]. set (z := part_of p rem) in *.
  destruct (unl1_frame _ _ _ _ _ _ _ H1) as (Em & _).
  destruct (unls_frame _ _ _ _ _ _ _ _ _ H2) as (Et & _).
  destruct (Hl p) as (L1 & L2 & L3 & L4 & L5); [by left|].
  rewrite fmap_cons in Hs. inversion Hs as [|? ? Hs1 Hs2]; subst.
  assert (Hlt : forall p', p' ∈ l -> pos_time p < pos_time p').
  { intros p' Hp'. rewrite Forall_forall in Hs2. apply Hs2. by apply elem_of_list_fmap_1. }
  set (h := vault_account c FLEXIBLE a (pos_time p)) in *.
  destruct Hq as (Q0 & Q1 & Q2 & Q3 & Q4 & Q5 & Q6 & Q7 & Q8).
  destruct (unl1_exact c g b p z s1 s2 Hc Hd ltac:(lia) ltac:(fold a h; lia) ltac:(lia) L2 H1) as [X1 X2 X3].
  cbn zeta in X3. fold a h in X3.
  assert (Hx : part_taken s0 s' a (pos_time p) = z).
  { unfold part_taken, amount_at. rewrite L1. change (positions s') with (v_positions (st_vaults s')). rewrite Et, take_pos_other.
    2:{ intros p' Hp' [= E]. apply Hlt in Hp'. lia. }
    change (match v_positions (st_vaults s2) !! (a, FLEXIBLE, pos_time p) with Some q0 => pos_amount q0 | None => 0 end)
      with (amt_at (v_positions (st_vaults s2)) (a, FLEXIBLE, pos_time p)).
    rewrite Em, amt_at_upos by (done || lia). unfold amt_at, ind. rewrite Hp, decide_True by done. lia. }
  assert (Hy : claimable s1 h = part_yield c s0 a (pos_time p)).
  { unfold part_yield, claimable. fold h. by rewrite L3, L4, Q0. }
  assert (Hap : down z (pos_index p) = floor_div (z * unit_index) (pos_index p)) by (apply down_floor; lia).
  rewrite Hy, Hap, Q0, Q1, Q2 in X3. rewrite Hap, Q0, Q1, Q2 in X2.
  destruct X3 as (R1 & R2 & R3 & R4 & R5 & R6).
  destruct (flex_account_not c a (pos_time p)) as (N1 & N2 & N3 & N4 & N5 & _ & N6 & _). fold h in N1, N2, N3, N4, N5, N6.
  set (q1 := pay_part c s0 s' a q (pos_time p)).
  set (r := if 0 <? po_vault q then _ else 0) in *.
  set (y := part_yield c s0 a (pos_time p)) in *.
  assert (Hq1 : q1 = mk_payout (rewards s2) (po_vault q - principal_of s0 r) (po_user q + principal_of s0 r + principal_of s0 (z + y))
      (po_stake q + z) (po_rewards q + r) (po_yield q + y) (po_principal q + floor_div (z * unit_index) (pos_index p))).
  { subst q1. unfold pay_part. rewrite L1, Hx. fold y. cbn zeta. fold r. by rewrite X2. }
  assert (U1 : up r (current_index s0) = principal_of s0 r) by (apply up_ceil; lia).
  assert (U2 : up (z + y) (current_index s0) = principal_of s0 (z + y)) by (apply up_ceil; lia).
  rewrite U1, U2 in R4.
  assert (M2 : matched s0 a q1 s2).
  { rewrite Hq1. unfold matched. cbn [po_records po_vault po_user po_stake po_rewards po_yield po_principal].
    assert (a <> FlexibleA /\ a <> YieldA /\ a <> h) as (A1 & A2 & A3) by (subst a; split_and!; try done; intros E; by apply (N6 b)).
    split; [congruence|]. split; [done|]. rewrite !R4, !R3, R5, R6. clear - Q2 Q3 Q4 Q5 Q6 Q7 Q8 N2 N4 A1 A2 A3 Hap.
    split_and!; unfold ind; repeat case_decide; try congruence; try done; lia. }
  apply in_map_tail with (part := z) in Hm. rewrite <- Em in Hm.
  destruct (IH (rem - z) s2 rem' d' q1 Hm Hs1 ltac:(lia)) as (ts & T1 & T2 & T3 & T4 & T5 & T6 & T7); [|done|done|].
  { intros p' Hp'. destruct (Hl p') as (K1 & K2 & K3 & K4 & K5); [by right|]. split; [done|]. split; [done|].
    set (h' := vault_account c FLEXIBLE a (pos_time p')) in *. cbn zeta.
    assert (h' <> h). { intros E. apply account_private in E as [_ E]; [|done]. apply Hlt in Hp'. lia. }
    destruct (flex_account_not c a (pos_time p')) as (M1 & M2' & M3 & M4 & M5 & _ & M6 & _). fold h' in M1, M2', M3, M4, M5, M6.
    rewrite R3, R4. unfold ind. rewrite !decide_False by (try done; apply M6). split; [lia|]. split; [lia|done]. }
  assert (Tlt : forall t, t ∈ ts -> pos_time p < t).
  { intros t Ht. apply T2, elem_of_list_fmap in Ht as (p' & -> & Hp'). by apply Hlt. }
  exists (pos_time p :: ts). split; [|split; [|split; [|split; [|split; [|split]]]]].
  - constructor; [done|]. by apply Forall_forall.
  - intros t [->|Ht]%elem_of_cons; [by left|]. right. by apply T2.
  - intros p' [->|Hp']%elem_of_cons.
    + rewrite Hx. split; [lia|by left].
    + rewrite <- T3 by done. split; [|by right]. intros [E|?]%elem_of_cons; [|done]. apply Hlt in Hp'. lia.
  - cbn [fold_left]. exact T4.
  - intros t [->|Ht]%elem_of_cons; [|by apply T5]. fold h. rewrite Hx. rewrite T6.
    + rewrite R4, L4. unfold ind. rewrite (decide_False (P := h = a)), (decide_False (P := h = FlexibleA)), decide_True by (try done; apply N6). fold y. lia.
    + apply N6.
    + done.
    + intros t Ht E. apply account_private in E as [_ E]; [|done]. apply Tlt in Ht. lia.
  - intros x Hx1 Hx2 Hx3. rewrite T6; [|done|done|intros t Ht; apply Hx3; by right].
    rewrite R4. unfold ind. rewrite !decide_False; [lia| |done|done]. subst h. apply Hx3. by left.
  - cbn [fold_left]. fold q1. rewrite T7. rewrite Hq1. cbn [po_principal]. rewrite Hap. lia.
Qed.

Lemma positions_sorted s a v : pos_wf s -> StronglySorted Z.lt (pos_time <$> positions_of s a v).
Proof.
  intros Hw. assert (E : pos_time <$> positions_of s a v = (position_entries s a v).*1).
  { unfold positions_of. rewrite <- list_fmap_compose. apply list_fmap_ext. intros i [t p] H. cbn.
    apply elem_of_list_lookup_2, elem_entries in H. by apply Hw in H as (_ & ? & _). }
  rewrite E. clear E Hw. pose proof (entries_sorted s a v) as Hs. pose proof (entries_nodup s a v) as Hn.
  induction (position_entries s a v) as [|[t p] l IH]; [constructor|]. cbn [fmap list_fmap fst] in *.
  inversion Hs as [|? ? H1 H2]; subst. apply NoDup_cons in Hn as [Hn1 Hn2]. constructor; [by apply IH|].
  rewrite Forall_forall in H2. apply Forall_forall. intros t' Ht'. pose proof Ht' as ([t2 p2] & -> & Hin)%elem_of_list_fmap. specialize (H2 _ Hin).
  unfold zkey_le in H2. cbn in H2 |- *. assert (t <> t2) by (intros ->; apply Hn1, elem_of_list_fmap; by exists (t2, p2)). lia.
Qed.
Theorem flexible_payout c s s' g x b : chain_ok c -> reachable c s -> c_dec c g = Some (AUser b) ->
  exec c (OpUnlock g FLEXIBLE (Some x)) s = Ok s' tt -> let a := AUser b in
  exists ts, touches s s' a ts /\
    let q := fold_left (pay_part c s s' a) ts (payout_start s a) in
    po_stake q = x /\ rewards s' = po_records q /\
    bal s' a = bal s a + x + po_rewards q + po_yield q /\ bal s' FlexibleA = bal s FlexibleA - po_rewards q /\
    bal s' YieldA = bal s YieldA - po_yield q /\
    prin s' a = po_user q /\ prin s' FlexibleA = po_vault q /\
    (forall t, t ∈ ts -> prin s' (vault_account c FLEXIBLE a t) =
       prin s (vault_account c FLEXIBLE a t) - principal_of s (part_taken s s' a t + part_yield c s a t)) /\
    (forall z, z <> a -> z <> FlexibleA -> (forall t, t ∈ ts -> z <> vault_account c FLEXIBLE a t) -> prin s' z = prin s z) /\
    distributed s' = distributed s + po_rewards q /\
    v_total_flex (st_vaults s') = v_total_flex (st_vaults s) - po_principal q /\
    vault_total s' FLEXIBLE = vault_total s FLEXIBLE - po_principal q /\ vault_total s' STAKED = vault_total s STAKED.
Proof.
  intros Hc Hr Hd E a. destruct (winv_reachable _ _ Hc Hr) as [Hw Hp]. destruct (solid_reachable _ _ Hc Hr) as [_ Hb].
  destruct (unlock_effect c s s' g FLEXIBLE (Some x) Hc (winv_reachable _ _ Hc Hr) E) as (b' & x' & Hd' & [= <-] & _ & _ & _ & _ & _ & _ & _ & _ & HF & _).
  assert (b' = b) as -> by congruence. destruct (HF eq_refl) as (R & Y & _ & _ & B1 & B2 & B3 & _). fold a in B1. clear HF Hd'.
  destruct (unlock_inv' c g FLEXIBLE (Some x) s s' Hp E) as (b' & x' & d & s1 & Hd' & [= <-] & _ & _ & _ & _ & Hx & _ & Hu & ->).
  assert (b' = b) as -> by congruence. fold a in Hu |- *. clear Hd'.
  assert (Hi : 0 < current_index s) by apply Hw.
  pose proof (in_map_positions s a FLEXIBLE Hp) as Hm.
  destruct (unls_payout c g b s s1 (ok_codec _ Hc) Hd Hi (positions_of s a FLEXIBLE) x s 0 d (payout_start s a) Hm
    (positions_sorted s a FLEXIBLE Hp) ltac:(lia)) as (ts & T1 & T2 & T3 & T4 & T5 & T6 & T7).
  - intros p Hin. destruct (proj2 Hm p Hin) as [K1 K2]. split; [done|]. apply Hp in K1 as (_ & _ & [K1 _] & _). cbn zeta. auto.
  - done.
  - unfold matched, payout_start. cbn [po_records po_vault po_user po_stake po_rewards po_yield po_principal]. split_and!; try done; lia.
  - set (s2 := unlock_result s1 a FLEXIBLE d) in *.
    assert (EP : positions s2 = positions s1) by done.
    assert (PT : forall t, part_taken s s2 a t = part_taken s s1 a t) by done.
    assert (EF : forall l q, fold_left (pay_part c s s2 a) l q = fold_left (pay_part c s s1 a) l q) by done.
    exists ts. rewrite EF. set (q := fold_left _ ts (payout_start s a)) in *. destruct T4 as (M0 & M1 & M2 & M3 & M4 & M5 & M6 & M7 & M8).
    destruct (unls_frame _ _ _ _ _ _ _ _ _ Hu) as (Et & _ & _ & _ & _ & (V1 & _ & V2 & _) & _).
    split.
    { split; [done|]. intros t. rewrite PT. destruct (v_positions (st_vaults s) !! (a, FLEXIBLE, t)) as [p|] eqn:Ep.
      - assert (Hin : p ∈ positions_of s a FLEXIBLE) by (apply elem_positions; eauto).
        assert (pos_time p = t) as <- by (by apply Hp in Ep as (_ & ? & _)). by apply T3.
      - split.
        + intros (p & -> & Hin)%T2%elem_of_list_fmap. destruct (proj2 Hm p Hin) as [K _]. by rewrite Ep in K.
        + unfold part_taken, amount_at, positions. rewrite Ep, Et, take_pos_other, Ep; [lia|].
          intros p Hin E2. destruct (proj2 Hm p Hin) as [K _]. rewrite <- E2, Ep in K. done. }
    cbn zeta.
    change (bal s2) with (bal s1) in *. change (prin s2) with (prin s1). change (rewards s2) with (rewards s1). 
    change (v_total_flex (st_vaults s2)) with (v_total_flex (st_vaults s1)).
    assert (D2 : distributed s2 = distributed s1 /\ vault_total s2 FLEXIBLE = vault_total s1 FLEXIBLE - d /\ vault_total s2 STAKED = vault_total s1 STAKED).
    { subst s2. unfold unlock_result, distributed, vault_total, with_stats, vprin_add, users_down. cbn. destruct (Nat.eqb _ 0); cbn; split_and!; try done; lia. }
    destruct D2 as (-> & -> & ->). unfold vault_total. change (FLEXIBLE =? STAKED) with false. change (STAKED =? STAKED) with true. cbn iota. rewrite V1, V2.
    cbn [payout_start po_principal] in T7.
    change (bal s1 a = bal s a + x + R + Y) in B1. change (bal s1 FlexibleA = bal s FlexibleA - R) in B2. change (bal s1 YieldA = bal s YieldA - Y) in B3.
    fold a in M4. split_and!; try done; lia.
Qed.

(** A share is the pro-rata part of the record, up to rounding. *)
Lemma nearest_bounds z : 2 * z - 10 ^ 18 <= 2 * (nearest z * 10 ^ 18) <= 2 * z + 10 ^ 18.
Proof.
  unfold nearest. cbn zeta. pose proof (Z.div_mod z (10 ^ 18) ltac:(done)) as H. pose proof (Z.mod_pos_bound z (10 ^ 18) ltac:(done)) as Hm.
  revert H Hm. generalize (z / 10 ^ 18) (z mod 10 ^ 18). intros q r. change (10 ^ 18) with 1000000000000000000 in *. intros H Hm.
  destruct (Z.ltb_spec (2 * r) 1000000000000000000); [lia|]. destruct (Z.ltb_spec 1000000000000000000 (2 * r)); [lia|]. destruct (Z.even q); lia.
Qed.
Theorem share_pro_rata r ap : 0 < rw_total r <= 10 ^ 18 -> 0 <= rw_rewards r -> 0 <= ap <= rw_total r ->
  rw_rewards r * ap - 2 * rw_total r < reward_share r ap * rw_total r <= rw_rewards r * ap + rw_total r.
Proof.
  intros HT HR Ha. unfold reward_share. set (T := rw_total r) in *. set (R := rw_rewards r) in *.
  pose proof (Z.div_mod (R * 10 ^ 36) T ltac:(lia)) as HN. pose proof (Z.mod_pos_bound (R * 10 ^ 36) T ltac:(lia)) as HM.
  set (N := R * 10 ^ 36 / T) in *. set (m := (R * 10 ^ 36) mod T) in *.
  pose proof (nearest_bounds N) as Hq. set (q := nearest N) in *.
  pose proof (Z.div_mod (q * ap) (10 ^ 18) ltac:(done)) as HS. pose proof (Z.mod_pos_bound (q * ap) (10 ^ 18) ltac:(done)) as HK.
  set (S := q * ap / 10 ^ 18) in *. set (k := (q * ap) mod 10 ^ 18) in *. clearbody S k q N m T R.
  change (10 ^ 36) with (10 ^ 18 * 10 ^ 18) in *. set (E := 10 ^ 18) in *. assert (HE : E = 1000000000000000000) by reflexivity. clearbody E.
  assert (H1 : 0 <= ap * T) by nia. assert (H2 : ap * T <= E * T) by nia.
  assert (A : 2 * (q * E) * (ap * T) <= (2 * N + E) * (ap * T)) by (apply Z.mul_le_mono_nonneg_r; lia).
  assert (B : (2 * N - E) * (ap * T) <= 2 * (q * E) * (ap * T)) by (apply Z.mul_le_mono_nonneg_r; lia).
  assert (C : N * T * ap = R * (E * E) * ap - m * ap) by (rewrite HN; ring).
  assert (D : q * E * (ap * T) = S * T * (E * E) + k * E * T).
  { replace (q * E * (ap * T)) with (q * ap * E * T) by ring. rewrite HS. ring. }
  assert (F : 0 <= k * E * T <= (E - 1) * E * T) by nia.
  assert (G : 0 <= m * ap <= T * ap) by nia.
  assert (I : 2 * (S * T) * (E * E) <= 2 * (R * ap) * (E * E) + E * E * T) by nia.
  assert (J : 2 * (R * ap) * (E * E) - 2 * (T * E) - E * E * T - 2 * (E * E * T) < 2 * (S * T) * (E * E)) by nia.
  split.
  - assert (2 * (T * E) <= E * E * T) by nia. set (W := S * T) in *. set (V := R * ap) in *. clearbody W V. clear - J H HE HT.
    assert (0 < E * E) by lia. nia.
  - set (W := S * T) in *. set (V := R * ap) in *. clearbody W V. clear - I HE HT. assert (0 < E * E) by lia. nia.
Qed.
