(** The statistic of holders against the balances. *)
From Verif Require Export SolvencyP.

Definition hold (a : addr) (z : Z) : Z := if decide (a <> ModuleA /\ a <> YieldA /\ z <> 0) then 1 else 0.
Definition hcount (m : gmap addr Z) : Z := fsum hold m.
Lemma holder_count_eq s : holder_count s = hcount (bk_bal (st_bank s)).
Proof. done. Qed.
Lemma hold_zero a : hold a 0 = 0.
Proof. unfold hold. case_decide; [|done]. lia. Qed.
Lemma hold_special a z : ~ ordinary a -> hold a z = 0.
Proof. intros H. unfold hold. case_decide as E; [|done]. destruct H. split; apply E. Qed.
Lemma hold_ord a z : ordinary a -> hold a z = if z =? 0 then 0 else 1.
Proof. intros [H1 H2]. unfold hold. destruct (Z.eqb_spec z 0); case_decide as E; try done; [by destruct E as (_ & _ & [])|]. by destruct E. Qed.
Lemma hold_bounds a z : 0 <= hold a z <= 1.
Proof. unfold hold. case_decide; lia. Qed.
Lemma hcount_addz m k d : hcount (addz k d m) = hcount m - hold k (mget m k) + hold k (mget m k + d).
Proof.
  unfold hcount, addz. unfold mget at 2. destruct (m !! k) as [w|] eqn:E.
  - rewrite (fsum_insert_old _ _ _ _ _ E). done.
  - rewrite fsum_insert_fresh by done. cbn [default]. rewrite hold_zero. lia.
Qed.
Lemma hcount_ge m k : hold k (mget m k) <= hcount m.
Proof.
  unfold hcount, mget. destruct (m !! k) as [w|] eqn:E.
  - apply (fsum_elem_le hold); [|done]. intros. apply hold_bounds.
  - cbn. rewrite hold_zero. apply fsum_nonneg. intros. apply hold_bounds.
Qed.

Record tally (s : state) : Prop := {
  ta_bal : forall a, 0 <= bal s a;
  ta_bounds : 0 <= holders s <= holder_count s;
  ta_sends : holder_count s <= sends s;
  ta_index : 0 < current_index s }.
Definition exact (s : state) : Prop := tally s /\ (sends s < 2 ^ 64 -> holders s = holder_count s).

Lemma wrap_u64_le z : 0 <= z -> 0 <= wrap_u64 z <= z.
Proof. unfold wrap_u64. intros. pose proof (Z.mod_pos_bound z (2 ^ 64) ltac:(lia)). pose proof (Z.mod_le z (2 ^ 64)). lia. Qed.
Lemma wrap_u64_small z : 0 <= z < 2 ^ 64 -> wrap_u64 z = z.
Proof. intros. unfold wrap_u64. by apply Z.mod_small. Qed.

Definition drift (s : state) : Z := holder_count s - holders s.
(** A transfer between ordinary accounts or to the module. *)
Definition hshape (s s' : state) : Prop :=
  0 <= holders s' <= holder_count s' /\ holder_count s' <= holder_count s + 1 /\
  (holder_count s + 1 < 2 ^ 64 -> drift s' <= drift s).

Lemma holders_send s f t amt : holders (send_result s f t amt) = send_holders f t (addz f (- amt) (bk_bal (st_bank s))) (holders s).
Proof. done. Qed.
Lemma count_send s f t amt : holder_count (send_result s f t amt) = hcount (addz t amt (addz f (- amt) (bk_bal (st_bank s)))).
Proof. done. Qed.

Lemma send_shape s f t amt : ordinary f -> ordinary t -> 0 < amt <= bal s f -> (forall a, 0 <= bal s a) -> 0 <= holders s <= holder_count s ->
  hshape s (send_result s f t amt).
Proof.
  intros Hf Ht Ha Hb Hh. unfold hshape, drift. rewrite holders_send, count_send, holder_count_eq in *.
  unfold send_holders. destruct Hf as [F1 F2], Ht as [T1 T2]. rewrite !decide_False by done.
  assert (Em : forall a, mget (bk_bal (st_bank s)) a = bal s a) by (intros; by rewrite bal_mget).
  set (m := bk_bal (st_bank s)) in *. set (B := addz f (- amt) m).
  assert (EB : hcount B = hcount m - 1 + (if mget B f =? 0 then 0 else 1)).
  { unfold B. rewrite hcount_addz, !hold_ord by done. rewrite mget_addz, decide_True by done.
    rewrite Em. rewrite (proj2 (Z.eqb_neq (bal s f) 0)) by lia. done. }
  assert (EC : hcount (addz t amt B) = hcount B + (if mget B t =? 0 then 1 else 0)).
  { rewrite hcount_addz, !hold_ord by done.
    assert (0 <= mget B t). { unfold B. rewrite mget_addz, Em. specialize (Hb t). case_decide; subst; lia. }
    rewrite (proj2 (Z.eqb_neq (mget B t + amt) 0)) by lia. destruct (mget B t =? 0); lia. }
  rewrite EC, EB. assert (1 <= hcount m). { pose proof (hcount_ge m f). rewrite hold_ord in H by done. rewrite Em in H. rewrite (proj2 (Z.eqb_neq (bal s f) 0)) in H by lia. done. }
  set (h := holders s) in *. clearbody h. set (c := hcount m) in *. clearbody c.
  set (h1 := if mget B f =? 0 then dec_sat h else h).
  assert (H1 : 0 <= h1 <= c - 1 + (if mget B f =? 0 then 0 else 1)).
  { unfold h1, dec_sat. destruct (mget B f =? 0); [|lia]. destruct (Z.ltb_spec 0 h); lia. }
  assert (H2 : c - 1 + (if mget B f =? 0 then 0 else 1) - h1 <= c - h).
  { unfold h1, dec_sat. destruct (mget B f =? 0); [|lia]. destruct (Z.ltb_spec 0 h); lia. }
  clearbody h1. destruct (mget B t =? 0).
  - pose proof (wrap_u64_le (h1 + 1) ltac:(lia)). split; [lia|]. split; [destruct (mget B f =? 0); lia|].
    intros L. rewrite wrap_u64_small; [lia|]. destruct (mget B f =? 0); lia.
  - split; [lia|]. split; [destruct (mget B f =? 0); lia|]. lia.
Qed.

Lemma pay_shape s t amt : ordinary t -> 0 < amt -> (forall a, 0 <= bal s a) -> 0 <= holders s <= holder_count s ->
  holders (send_result s YieldA t amt) = holders s /\
  holder_count (send_result s YieldA t amt) = holder_count s + (if bal s t =? 0 then 1 else 0).
Proof.
  intros Ht Ha Hb Hh. rewrite holders_send, count_send, holder_count_eq in *. unfold send_holders. rewrite decide_True by done. split; [done|].
  rewrite hcount_addz, !hold_ord by done. rewrite hcount_addz, !(hold_special YieldA) by (by intros [? []]).
  rewrite mget_addz, (decide_False (P := t = YieldA)) by apply Ht. rewrite <- !bal_mget, !Z.add_0_r. specialize (Hb t).
  rewrite (proj2 (Z.eqb_neq (bal s t + amt) 0)) by lia. destruct (bal s t =? 0); lia.
Qed.

Lemma tally_core s s' : same_core s s' -> tally s -> tally s'.
Proof.
  intros C [A1 A2 A3 A4]. constructor.
  - intros a. by rewrite (core_bal _ _ a C).
  - destruct C as (C1 & _ & _ & C4). unfold holder_count. rewrite C1, C4. done.
  - destruct C as (C1 & _ & _ & C4). unfold holder_count, sends. rewrite C1. done.
  - by rewrite (core_index _ _ C).
Qed.
Lemma exact_core s s' : same_core s s' -> exact s -> exact s'.
Proof.
  intros C [A1 A2]. split; [by eapply tally_core|]. destruct C as (C1 & _ & _ & C4). unfold holder_count, sends in *. rewrite C1, C4. done.
Qed.

(** Payments into an empty account are missed. *)
Definition missed (l : label) (s : state) : Z :=
  match l with
  | LPay a _ => if bal s a =? 0 then 1 else 0
  | LStaked _ _ => if bal s FlexibleA =? 0 then 1 else 0
  | LRelay _ _ => if bal s StakedA =? 0 then 1 else 0
  | LTally n => holders s - n
  | _ => 0
  end.
(** Payments that leave the statistic exact. *)
Definition held (l : label) (s : state) : Prop :=
  match l with
  | LPay a _ => bal s a <> 0
  | LStaked _ _ => bal s FlexibleA <> 0
  | LRelay _ _ => bal s StakedA <> 0
  | LTally n => holders s <= n
  | _ => True
  end.

Lemma drift_label l s : cpre l s -> tally s -> tally (capply l s) /\ (sends (capply l s) < 2 ^ 64 -> drift (capply l s) <= drift s + missed l s).
Proof.
  intros Hp T. pose proof (sends_label l s Hp) as [S1 S2]. destruct T as [T1 T2 T3 T4].
  assert (Hb : forall a, 0 <= bal (capply l s) a) by (intros a; by apply bal_label_lower).
  assert (Hi : 0 < current_index (capply l s)) by (pose proof (index_mono_label l s Hp) as [? _]; lia).
  enough (0 <= holders (capply l s) <= holder_count (capply l s) /\ holder_count (capply l s) - holder_count s <= sends (capply l s) - sends s /\
    (sends (capply l s) < 2 ^ 64 -> drift (capply l s) <= drift s + missed l s)) as (E1 & E2 & E3).
  { split; [constructor; auto; lia|done]. }
  unfold drift.
  destruct l as [f t amt|a y|y yp|t y|i n d|to amt|from amt|k]; cbn [cpre capply missed] in *.
  - destruct Hp as (P1 & P2 & P3). destruct (send_shape s f t amt P2 P3 P1 T1 T2) as (H1 & H2 & H3). split; [done|]. split; [lia|]. intros L. unfold drift in H3. lia.
  - destruct Hp as (P1 & P2 & P3). destruct (pay_shape s a y P3 ltac:(lia) T1 T2) as [H1 H2]. rewrite H1, H2.
    split; [destruct (bal s a =? 0); lia|]. split; [destruct (bal s a =? 0); lia|]. intros _. lia.
  - destruct Hp as (P1 & P2 & P3).
    change (holders (shiftp ?x ?z)) with (holders x). change (holder_count (shiftp ?x ?z)) with (holder_count x).
    destruct (pay_shape s FlexibleA y ltac:(done) ltac:(lia) T1 T2) as [H1 H2]. rewrite H1, H2.
    split; [destruct (bal s FlexibleA =? 0); lia|]. split; [destruct (bal s FlexibleA =? 0); lia|]. intros _. lia.
  - destruct Hp as (P1 & P2 & P3). destruct (pay_shape s StakedA y ltac:(done) ltac:(lia) T1 T2) as [H1 H2].
    set (s1 := send_result s YieldA StakedA y) in *.
    assert (B1 : forall a, 0 <= bal s1 a). { intros a. unfold s1. rewrite bal_send. specialize (T1 a). unfold ind. repeat case_decide; subst; try lia. }
    assert (y <= bal s1 StakedA). { unfold s1. rewrite bal_send. specialize (T1 StakedA). unfold ind. repeat case_decide; try done; lia. }
    destruct (send_shape s1 StakedA t y ltac:(done) P3 ltac:(lia) B1) as (H3 & H4 & H5); [rewrite H1, H2; destruct (bal s StakedA =? 0); lia|].
    split; [done|]. split; [rewrite H2 in H4; destruct (bal s StakedA =? 0); lia|].
    intros L. unfold drift in H5. rewrite H1, H2 in *. destruct (bal s StakedA =? 0); lia.
  - destruct Hp as (P1 & P2 & P3 & P4).
    assert (Eh : holders (accrued s i n d) = holders s) by (by destruct (frame_accrued s i n d) as (_ & _ & _ & -> & _)).
    assert (Ec : holder_count (accrued s i n d) = holder_count s).
    { unfold accrued. destruct (0 <? n); [|done]. change (holder_count (?x <| st_dollar; d_stats; ds_yield := ?y |>)) with (holder_count x).
      rewrite count_send. cbn [st_bank mint_result bk_bal]. rewrite !hcount_addz. rewrite !(hold_special YieldA) by (by intros [? []]). rewrite !(hold_special ModuleA) by (by intros [[] ?]).
      change (bk_bal (st_bank (mint_result ?x ?n))) with (addz ModuleA n (bk_bal (st_bank x))). rewrite hcount_addz, !(hold_special ModuleA) by (by intros [[] ?]).
      rewrite holder_count_eq. cbn. lia. }
    rewrite Eh, Ec. split; [done|]. split; lia.
  - destruct Hp as (P1 & P2). unfold issued in *. rewrite (proj2 (Z.ltb_lt 0 amt)) in * by lia.
    rewrite holders_send, count_send in *. change (bk_bal (st_bank (mint_result s amt))) with (addz ModuleA amt (bk_bal (st_bank s))).
    change (holders (mint_result s amt)) with (holders s). set (m := bk_bal (st_bank s)).
    set (B := addz ModuleA (- amt) (addz ModuleA amt m)).
    assert (E1 : hcount B = holder_count s). { unfold B. rewrite !hcount_addz, !(hold_special ModuleA) by (by intros [[] ?]). rewrite holder_count_eq. fold m. lia. }
    assert (E2 : forall a, mget B a = bal s a). { intros a. unfold B. rewrite !mget_addz, bal_mget. fold m. case_decide; lia. }
    rewrite hcount_addz, E1, E2. unfold send_holders. rewrite (decide_False (P := ModuleA = YieldA)) by done.
    destruct (decide (to = YieldA)) as [->|N].
    { rewrite !(hold_special YieldA) by (by intros [? []]). split; [lia|]. split; lia. }
    rewrite (decide_True (P := ModuleA = ModuleA)) by done. rewrite (decide_False (P := to = ModuleA)) by done. rewrite E2, !hold_ord by done.
    specialize (T1 to). rewrite (proj2 (Z.eqb_neq (bal s to + amt) 0)) by lia.
    destruct (bal s to =? 0).
    + pose proof (wrap_u64_le (holders s + 1) ltac:(lia)). split; [lia|]. split; [lia|]. intros L. rewrite wrap_u64_small; lia.
    + split; [lia|]. split; lia.
  - destruct Hp as (P1 & P2). unfold burned in *. rewrite (proj2 (Z.ltb_lt 0 amt)) in * by lia.
    change (holders (burn_result ?x ?z)) with (holders x). rewrite holder_count_eq.
    change (bk_bal (st_bank (burn_result ?x ?z))) with (addz ModuleA (- z) (bk_bal (st_bank x))).
    rewrite hcount_addz, !(hold_special ModuleA) by (by intros [[] ?]). rewrite <- holder_count_eq, holders_send, count_send.
    set (m := bk_bal (st_bank s)). set (B := addz from (- amt) m).
    rewrite hcount_addz, !(hold_special ModuleA) by (by intros [[] ?]). unfold send_holders. destruct P2 as [F1 F2].
    rewrite (decide_False (P := from = YieldA)) by done. rewrite (decide_False (P := ModuleA = YieldA)) by done.
    rewrite (decide_False (P := from = ModuleA)) by done. rewrite (decide_True (P := ModuleA = ModuleA)) by done.
    assert (EB : hcount B = holder_count s - 1 + (if mget B from =? 0 then 0 else 1)).
    { unfold B. rewrite hcount_addz, !hold_ord by done. rewrite mget_addz, decide_True by done. rewrite holder_count_eq. fold m.
      assert (mget m from = bal s from) as -> by (unfold m; by rewrite bal_mget). rewrite (proj2 (Z.eqb_neq (bal s from) 0)) by lia. done. }
    rewrite EB. assert (1 <= holder_count s). { rewrite holder_count_eq. pose proof (hcount_ge m from). rewrite hold_ord in H by done.
      assert (E : mget m from = bal s from) by (unfold m; by rewrite bal_mget). rewrite E in H. rewrite (proj2 (Z.eqb_neq (bal s from) 0)) in H by lia. done. }
    unfold dec_sat. destruct (mget B from =? 0); [|lia]. destruct (Z.ltb_spec 0 (holders s)); lia.
  - change (holders (tallied s k)) with k. change (holder_count (tallied s k)) with (holder_count s). change (sends (tallied s k)) with (sends s).
    assert (K : 0 <= k <= holder_count s).
    { destruct (Hp ltac:(lia)) as [?|(_ & -> & f & Hf & Hb')]; [lia|]. rewrite holder_count_eq.
      pose proof (hcount_ge (bk_bal (st_bank s)) f) as G. rewrite hold_ord, <- bal_mget in G by done.
      rewrite (proj2 (Z.eqb_neq (bal s f) 0)) in G by lia. lia. }
    lia.
Qed.

Lemma hold_label l s : cpre l s -> tally s -> tally (capply l s) /\ (held l s -> exact s -> exact (capply l s)).
Proof.
  intros Hp T. destruct (drift_label l s Hp T) as [T' D]. split; [done|]. intros Hh [_ Hx]. split; [done|]. intros L. specialize (D L).
  assert (M : missed l s <= 0) by (destruct l; cbn in *; try done; try (rewrite (proj2 (Z.eqb_neq _ _) Hh)); lia).
  pose proof (sends_label l s Hp) as [S1 _]. specialize (Hx ltac:(lia)). destruct T' as [_ B _ _]. unfold drift in D. lia.
Qed.

Lemma tally_fresh c s : fresh c s -> exact s.
Proof.
  intros F. assert (B : st_bank s = mk_bank ∅ 0 0) by apply F. assert (D : d_stats (st_dollar s) = mk_dstats 0 0 0) by apply F.
  assert (I : 0 < current_index s) by apply F.
  split; [|unfold holder_count, sends; by rewrite B, D]. constructor; [|unfold holder_count; by rewrite B, D|unfold holder_count, sends; by rewrite B|done].
  intros a. unfold bal. by rewrite B.
Qed.
Lemma tally_reachable c s : chain_ok c -> reachable c s -> tally s.
Proof.
  intros Hc Hr. apply (reachable_inv tally c s Hc Hr); [intros s0 F; apply (tally_fresh c s0 F)|].
  intros s1 s2 o W T E. destruct (op_trace _ _ _ _ Hc W E) as (ls & C & _).
  revert T. eapply ctrace_ind_core; [apply tally_core| |exact C]. intros l s0 Hp T. exact (proj1 (hold_label l s0 Hp T)).
Qed.
Theorem holders_upper c s : chain_ok c -> reachable c s -> 0 <= holders s <= holder_count s /\ holder_count s <= transfer_count s.
Proof. intros Hc Hr. destruct (tally_reachable c s Hc Hr). auto. Qed.

(** * Exactness while no yield accrues to empty accounts *)
Lemma yield_prin s a : 0 < current_index s -> 0 <= bal s a -> 0 < yield_of s a -> 0 < prin s a.
Proof.
  intros Hi Hb Hy. destruct (yield_of_pos s a Hy) as [H1 H2]. unfold present in H2.
  destruct (Z.le_gt_cases (prin s a) 0) as [L|]; [|done].
  assert (prin s a * current_index s <= 0) by nia. assert (Z.quot (prin s a * current_index s) e12 <= 0); [|lia].
  set (z := prin s a * current_index s) in *. clearbody z. unfold e12. lia.
Qed.

Lemma orderly_core s s' : same_core s s' -> st_vaults s' = st_vaults s -> orderly s -> orderly s'.
Proof.
  intros C V [A B]. split.
  - intros a. rewrite (core_bal _ _ a C), (core_prin _ _ a C). auto.
  - by rewrite !(core_bal _ _ _ C), V.
Qed.
Definition sharp (s : state) : Prop := exact s /\ orderly s.

(** One step of an index update. *)
Lemma pay_sharp s a y : ordinary a -> y = yield_of s a -> 0 < y <= bal s YieldA -> sharp s -> sharp (send_result s YieldA a y) /\ bal s a <> 0.
Proof.
  intros Ha Hy Hp [X [S1 S2]]. assert (N : bal s a <> 0).
  { intros E. specialize (S1 a Ha E). destruct X as [[T1 _ _ T4] _]. pose proof (yield_prin s a T4 (T1 a)). subst y. lia. }
  assert (Hc : cpre (LPay a y) s) by done. split; [|done]. destruct (hold_label _ _ Hc (proj1 X)) as [_ HX].
  split; [by apply HX|]. destruct X as [[T1 _ _ _] _]. split.
  - intros b Hb. rewrite bal_send. assert (prin (send_result s YieldA a y) b = prin s b) as -> by (by rewrite send_from_yield).
    intros E. apply S1; [done|]. specialize (T1 b). unfold ind in E. destruct Hb as [_ Hb]. rewrite (decide_False (P := b = YieldA)) in E by done. case_decide; lia.
  - rewrite !bal_send. change (st_vaults (send_result s YieldA a y)) with (st_vaults s). unfold ind.
    rewrite !(decide_False (P := FlexibleA = YieldA)), !(decide_False (P := StakedA = YieldA)) by done.
    pose proof (T1 FlexibleA). destruct S2 as [?|[?|?]]; [auto|right; left|]. { case_decide; lia. }
    destruct (decide (StakedA = a)) as [<-|]; [done|]. right; right; lia.
Qed.

Lemma upd_sharp c i s s' : good_collector s -> upd c i s s' -> sharp s -> sharp s'.
Proof.
  intros Hg Hu HS. assert (Hpay : forall a y, ordinary a -> y = yield_of s a -> y <= bal s YieldA \/ y = 0 -> sharp (pay s a y)).
  { intros a y Ha Hy Hb. unfold pay. destruct (Z.ltb_spec 0 y); [|done]. apply pay_sharp; auto. lia. }
  destruct Hu as [a y Ha Hy Hp|fy s1 He Hf Hb -> Hz|fy s1 sy yp He Hf Hb Es1 Hsy Hpos Hyp|y He Hy Hp|a amt Ha Hp|s' Hbk].
  - apply pay_sharp; auto. by apply holder_ordinary.
  - specialize (Hpay FlexibleA fy ltac:(done) Hf Hb). destruct Hpay as [X [S1 S2]]. split; [|split; [exact S1|exact S2]].
    eapply exact_core; [|exact X]. repeat split.
  - specialize (Hpay FlexibleA fy ltac:(done) Hf Hb). rewrite <- Es1 in Hpay. destruct Hpay as [X [S1 S2]].
    assert (He1 : v_ended (st_vaults s1) = false) by (rewrite Es1; unfold pay; by destruct (0 <? fy)).
    assert (Hc : cpre (LStaked sy yp) s1) by done. destruct X as [[T1 T2 T3 T4] X2].
    assert (N : bal s1 StakedA <> 0).
    { intros E. specialize (S1 StakedA ltac:(done) E). pose proof (yield_prin s1 StakedA T4 (T1 _)). lia. }
    assert (N2 : bal s1 FlexibleA <> 0) by (destruct S2 as [?|[?|?]]; congruence).
    destruct (hold_label _ _ Hc (Build_tally _ T1 T2 T3 T4)) as [_ HX]. specialize (HX N2 (conj (Build_tally _ T1 T2 T3 T4) X2)).
    split; [eapply exact_core; [|exact HX]; repeat split|]. cbn [capply] in HX. destruct HX as [[U1 _ _ _] _].
    assert (EB : forall b, bal (shiftp (send_result s1 YieldA FlexibleA sy) yp) b = bal s1 b - ind (b = YieldA) sy + ind (b = FlexibleA) sy).
    { intros b. change (bal (shiftp ?x ?z) b) with (bal x b). apply bal_send. }
    assert (Hyp0 : 0 <= yp). { destruct (yield_principal_bounds _ _ _ (proj1 Hpos) T4 Hyp). lia. }
    split.
    + intros b Hb0. change (bal (record_reward ?x _ _) b) with (bal x b). change (prin (record_reward ?x _ _) b) with (prin x b). rewrite EB.
      rewrite prin_shift, prin_yield. intros E. unfold ind in *. destruct Hb0 as [B1 B2]. rewrite (decide_False (P := b = YieldA)) in E by done.
      pose proof (T1 b). destruct (decide (b = FlexibleA)) as [->|]; [lia|]. specialize (S1 b ltac:(done) ltac:(lia)). case_decide; lia.
    + right. left. change (bal (record_reward ?x _ _) ?b) with (bal x b). rewrite EB. unfold ind. rewrite decide_False, decide_True by done.
      pose proof (T1 FlexibleA). lia.
  - destruct HS as [X [S1 S2]]. destruct X as [T X2]. pose proof T as [T1 T2 T3 T4].
    assert (N : bal s StakedA <> 0).
    { intros E. specialize (S1 StakedA ltac:(done) E). pose proof (yield_prin s StakedA T4 (T1 _)). lia. }
    assert (Hc : cpre (LRelay (v_collector (st_vaults s)) y) s) by done. destruct (hold_label _ _ Hc T) as [_ HX].
    split; [by apply HX|]. split; [|left; exact He].
    intros b Hb0. rewrite !bal_send. rewrite prin_send by (done || apply Hg). assert (E0 : prin (send_result s YieldA StakedA y) b = prin s b) by (by rewrite send_from_yield).
    rewrite E0. assert (E1 : current_index (send_result s YieldA StakedA y) = current_index s) by done. rewrite E1.
    intros E. pose proof (T1 b). assert (U0 : 0 <= up y (current_index s)) by (apply up_nonneg; lia). unfold ind in *. destruct Hb0 as [B1 B2].
    rewrite (decide_False (P := b = YieldA)) in E by done. specialize (S1 b ltac:(done)).
    destruct (decide (b = v_collector (st_vaults s))); destruct (decide (b = StakedA)); subst; lia.
  - assert (Ho : ordinary a) by (destruct Ha as [->|[? ->]]; done). destruct HS as [[T X2] [S1 S2]].
    assert (Hc : cpre (LSend a a amt) s) by done. destruct (hold_label _ _ Hc T) as [_ HX]. split; [by apply HX|]. split.
    + intros b Hb0. rewrite bal_send, prin_send by apply Ho. intros E. unfold ind in *. specialize (S1 b Hb0). case_decide; lia.
    + rewrite !bal_send. unfold ind. change (st_vaults (send_result s a a amt)) with (st_vaults s). destruct S2 as [?|[?|?]]; [auto|right; left|right; right]; case_decide; lia.
  - destruct Hbk as (? & ? & ? & ? & ? & -> & _). destruct HS as [X S]. split; [eapply exact_core; [|exact X]; repeat split|exact S].
Qed.
Lemma upds_sharp c i s s' : good_collector s -> upds c i s s' -> sharp s -> sharp s'.
Proof.
  intros Hg Hu. revert Hg. induction Hu as [|s s1 s2 H1 H2 IH]; [done|]. intros Hg HS.
  apply IH; [|by eapply upd_sharp]. apply (upd_frame' c i s s1 (upds_one _ _ _ _ H1) Hg).
Qed.
Lemma accrued_sharp s i n d : cpre (LAccrue i n d) s -> sharp s -> sharp (accrued s i n d).
Proof.
  intros Hp [X [S1 S2]]. destruct (hold_label _ _ Hp (proj1 X)) as [_ HX]. split; [by apply HX|].
  assert (Hn : 0 <= n) by apply Hp. split.
  - intros a Ha. rewrite bal_accrued by done. unfold prin. destruct (frame_accrued s i n d) as (_ & -> & _).
    intros E. apply S1; [done|]. unfold ind in E. rewrite decide_False in E by apply Ha. lia.
  - rewrite !bal_accrued by done. destruct (frame_accrued s i n d) as (_ & _ & _ & _ & _ & _ & _ & _ & _ & _ & -> & _).
    unfold ind. rewrite !decide_False by done. rewrite !Z.add_0_r. done.
Qed.
Lemma tried_sharp c i s s' : good_collector s -> i < 2 ^ 63 -> index_tried c i s s' -> sharp s -> sharp s'.
Proof.
  intros Hg Hi [[_ ->]|(H1 & n & d & H2 & H3 & H4 & H5)] HS; [done|].
  eapply upds_sharp; [|exact H5|]; [by apply accrued_good|]. apply accrued_sharp; [|done]. cbn.
  split; [done|]. split; [done|]. split; [done|]. destruct H4 as [?|(? & ? & ? & _)]; auto.
Qed.
Lemma applied_tried c i s s' : index_applied c i s s' -> index_tried c i s s'.
Proof. intros (H1 & n & H2 & H3 & H4). right. split; [done|]. exists n, n. auto. Qed.

Definition calm (s s' : state) : Prop := tally s -> tally s' /\ sends s <= sends s' /\ (sends s' < 2 ^ 64 -> drift s' <= drift s).
Lemma calm_core s s' : same_core s s' -> calm s s'.
Proof.
  intros C T. split; [by eapply tally_core|]. destruct C as (C1 & _ & _ & C4). unfold drift, holder_count, sends. rewrite C1, C4. lia.
Qed.
Lemma calm_refl s : calm s s.
Proof. by apply calm_core. Qed.
Lemma calm_trans s s' s'' : calm s s' -> calm s' s'' -> calm s s''.
Proof. intros H1 H2 T. destruct (H1 T) as (T1 & ? & ?). destruct (H2 T1) as (T2 & ? & ?). split; [done|]. split; [lia|]. intros. lia. Qed.
Lemma calm_label l s : cpre l s -> (tally s -> missed l s = 0) -> calm s (capply l s).
Proof. intros Hp Hm T. destruct (drift_label l s Hp T) as [T' D]. rewrite (Hm T) in D. pose proof (sends_label l s Hp). split; [done|]. split; [lia|]. lia. Qed.
Lemma calm_exact s s' : calm s s' -> exact s -> exact s'.
Proof. intros H [T X]. destruct (H T) as (T' & S & D). split; [done|]. intros L. specialize (D L). specialize (X ltac:(lia)). destruct T' as [_ B _ _]. unfold drift in D. lia. Qed.
(** Traces without yield payments. *)
Lemma calm_trace ls s s' : ctrace ls s s' -> Forall (fun l => match l with LPay _ _ | LStaked _ _ | LRelay _ _ | LTally _ => False | _ => True end) ls -> calm s s'.
Proof.
  induction 1 as [? ? C0|l ls s0 s1 s3 Hp C0 C IH]; intros F; [by apply calm_core|]. apply Forall_cons in F as [Hl F].
  eapply calm_trans; [apply (calm_label l s0 Hp); by destruct l|]. eapply calm_trans; [by apply calm_core|auto].
Qed.
Lemma unl1_calm signer a v p part s s' : ordinary a -> 0 < part -> unl1 signer a v p part s s' -> calm s s'.
Proof.
  intros Ha Hpos H. destruct H as [Hv Hb|s2 rew y Hv Hr Hy Hyb Hb]; destruct (pacct_not signer v p) as (N1 & N2 & N3 & N4).
  - eapply calm_trans; [apply (calm_label (LSend (pacct signer v p) a part)); [|done]|apply calm_core; repeat split]. split; [lia|]. split; [by split|done].
  - eapply calm_trans; [apply (calm_core s (sub_flex s (down part (pos_index p)))); repeat split|].
    destruct (rewards_rel_trace _ _ _ _ _ _ Ha Hr) as (ls & C & F).
    eapply calm_trans; [eapply calm_trace; [exact C|]; eapply Forall_impl; [exact F|]; by intros ? [z ->]|].
    eapply calm_trans; [apply (calm_core s2 (add_dist s2 rew)); repeat split|].
    set (s3 := add_dist s2 rew) in *. change (bal s2 YieldA) with (bal s3 YieldA) in Hyb.
    pose proof (yield_of_nonneg s3 (pacct signer v p)) as Hy0.
    assert (Hb2 : part <= bal s3 (pacct signer v p)).
    { unfold pay in Hb. destruct (Z.ltb_spec 0 y); [|lia]. rewrite bal_send in Hb. unfold ind in Hb. rewrite decide_False, decide_True in Hb by done. lia. }
    apply (calm_trans _ (pay s3 (pacct signer v p) y)).
    { unfold pay. destruct (Z.ltb_spec 0 y); [|apply calm_refl]. apply (calm_label (LPay (pacct signer v p) y) s3).
      - split; [lia|]. split; [done|by split].
      - intros _. unfold missed. rewrite (proj2 (Z.eqb_neq _ _)); [done|lia]. }
    assert (Hpy : 0 < part + y) by lia.
    eapply calm_trans; [apply (calm_label (LSend (pacct signer v p) a (part + y)))|]; [by split|done|]. apply calm_core. repeat split.
Qed.
Lemma unls_calm signer a v l rem s rem' d s' : ordinary a -> Forall (fun p => 0 < pos_amount p) l -> 0 <= rem ->
  unls signer a v l rem s rem' d s' -> calm s s'.
Proof.
  intros Ha HF Hr Hu. induction Hu as [| |p l rem s s1 s2 rem' d Hne H1 Hu IH]; [apply calm_refl|apply calm_refl|].
  apply Forall_cons in HF as [Hp HF]. pose proof (part_pos p rem Hp Hr Hne) as Hpp. eapply calm_trans; [|apply IH; [done|lia]].
  by eapply unl1_calm; [exact Ha|apply Hpp|exact H1].
Qed.
(** Multi-sends. *)
Lemma multi_drift f l s s' : ordinary f -> is_Some (bk_bal (st_bank s) !! f) -> Forall (fun ta : addr * Z => 0 < ta.2) l -> l <> [] -> total_of l <= bal s f ->
  multi f l (lifted s f (- total_of l)) s' -> tally s ->
  tally s' /\ sends s <= sends s' /\ (sends s' < 2 ^ 64 -> drift s' <= drift s + (if decide (bal s f = total_of l) then Z.of_nat (length l) - 1 else 0)).
Proof.
  intros Hf Hd F Hl. destruct l as [|ta l0]; [done|]. clear Hl.
  revert ta s Hd F. induction l0 as [|tb l0 IH]; intros [t a] s Hd F Hb H T; inversion H as [|t' a' l' s0 s1 Ha Ht1 Ht2 Hm]; subst; clear H.
  - apply Forall_cons in F as [_ F]. change (total_of [(t, a)]) with (a + 0) in *. rewrite Z.add_0_r in *.
    rewrite lifted_lifted in Hm. replace (- a + a) with (- 0) in Hm by lia.
    destruct (output_step s f t a 0 Hf Ht1 Ht2 Ha ltac:(lia) ltac:(lia)) as (n & E & En & _).
    assert (n = holders s) as -> by (destruct (Z.eq_dec n (holders s)) as [|N]; [done|]; destruct (En N); lia).
    rewrite tally_none in E. rewrite E in Hm. inversion Hm; subst. clear Hm.
    change (- 0) with 0 in *. assert (C : calm s (lifted (send_result s f t a) f 0)).
    { eapply calm_trans; [apply (calm_label (LSend f t a)); [|done]; split; [lia|by split]|]. apply calm_core.
      unfold lifted, same_core, current_index. cbn [capply]. cbn. rewrite addz_0; [by destruct s as [[] ? ? ? ?]|].
      unfold addz at 1. destruct (decide (f = t)) as [->|]; [rewrite lookup_insert; eauto|]. rewrite lookup_insert_ne by done.
      unfold addz. rewrite lookup_insert. eauto. }
    destruct (C T) as (T' & S & D). split; [done|]. split; [done|]. intros L. specialize (D L). case_decide; cbn; lia.
  - apply Forall_cons in F as [_ F]. pose proof (total_nonneg _ F) as Hr. set (r := total_of (tb :: l0)) in *.
    change (total_of ((t, a) :: tb :: l0)) with (a + r) in *. rewrite lifted_lifted in Hm. replace (- (a + r) + a) with (- r) in Hm by lia.
    destruct (output_step s f t a r Hf Ht1 Ht2 Ha Hr Hb) as (n & E & En & Hn). rewrite E in Hm.
    assert (Bt : bal (tallied s n) f = bal s f) by done. set (s1 := send_result (tallied s n) f t a) in *.
    destruct (drift_label (LTally n) s Hn T) as [T0 D0].
    assert (Hs1 : cpre (LSend f t a) (tallied s n)) by (cbn [cpre]; rewrite Bt; split; [lia|by split]).
    destruct (calm_label (LSend f t a) (tallied s n) Hs1 ltac:(done) T0) as (T1 & S1 & D1). cbn [capply missed] in *. fold s1 in T1, S1, D1.
    assert (B1 : bal s1 f = bal s f - a + ind (f = t) a) by (unfold s1; rewrite bal_send; unfold ind; rewrite Bt, decide_True by done; done).
    assert (Hd1 : is_Some (bk_bal (st_bank s1) !! f)).
    { cbn. unfold addz at 1. destruct (decide (f = t)) as [->|]; [rewrite lookup_insert; eauto|]. rewrite lookup_insert_ne by done.
      unfold addz. rewrite lookup_insert. eauto. }
    assert (Hb1 : r <= bal s1 f). { rewrite B1. unfold ind. clear -Hb Ha. case_decide; lia. }
    destruct (IH tb s1 Hd1 F Hb1 Hm T1) as (T2 & S2 & D2). change (sends (tallied s n)) with (sends s) in *.
    split; [done|]. split; [lia|]. intros L. specialize (D2 L). specialize (D1 ltac:(lia)). specialize (D0 ltac:(lia)).
    assert (Hc : drift s <= holder_count s /\ 0 <= holders s < 2 ^ 64) by (destruct T as [_ ? ? _]; unfold drift; lia).
    destruct (Hn ltac:(lia)) as [[N1 N2]|(N1 & N2 & _)].
    + specialize (N2 ltac:(lia)). fold r in D2. rewrite B1 in D2. unfold ind in D2. cbn [length] in *.
      destruct (Z.eq_dec n (holders s)) as [Eq|N]; [|destruct (En N)]; repeat case_decide; lia.
    + specialize (En ltac:(lia)) as [? ?]. fold r in D2. rewrite B1 in D2. unfold ind in D2. cbn [length] in *. repeat case_decide; lia.
Qed.
(** All messages other than claims and deliveries. *)
Lemma step_calm c o s s' : chain_ok c -> winv c s -> exec c o s = Ok s' tt ->
  match o with OpClaimYield _ | OpDeliver _ _ | OpMultiSend _ _ => False | _ => True end -> calm s s'.
Proof.
  intros Hc W E Ho. destruct (op_trace _ _ _ _ Hc W E) as (ls & C & F).
  assert (Hplain : (forall l, allowed c o l -> match l with LPay _ _ | LStaked _ _ | LRelay _ _ | LTally _ => False | _ => True end) -> calm s s').
  { intros HA. eapply calm_trace; [exact C|]. eapply Forall_impl; [exact F|exact HA]. }
  destruct o; try done; try (apply Hplain; clear; intros l H; cbn in H; repeat match goal with H : _ /\ _ |- _ => destruct H | H : exists _, _ |- _ => destruct H end; subst; done).
  destruct (unlock_inv' _ _ _ _ _ _ (wi_pos _ _ W) E) as (b & amt & d & s1 & _ & _ & _ & _ & _ & _ & Ha & _ & Hu & ->).
  eapply calm_trans; [eapply unls_calm; [| | |exact Hu]|apply calm_core; repeat split]; [done|apply pos_wf_positive, W|lia].
Qed.

Lemma step_multi c f outs s s' : chain_ok c -> winv c s -> exec c (OpMultiSend f outs) s = Ok s' tt -> tally s ->
  tally s' /\ sends s <= sends s' /\ (sends s' < 2 ^ 64 -> drift s' <= drift s + spread s (OpMultiSend f outs)).
Proof.
  intros Hc W E T. destruct (op_multi_inv _ _ _ _ _ (ok_blocked _ Hc) E) as (He & Hne & F & Hb & M).
  refine (multi_drift f outs s s' _ _ F Hne ltac:(lia) M T); [by apply external_ordinary|].
  unfold bal in Hb. destruct (bk_bal (st_bank s) !! f); [eauto|]. cbn in Hb. lia.
Qed.
Lemma step_exact c o s s' : chain_ok c -> winv c s -> exec c o s = Ok s' tt -> spread s o = 0 -> sharp s -> exact s'.
Proof.
  intros Hc W E H0 HS. destruct o; try (eapply calm_exact; [by eapply step_calm|apply HS]).
  - destruct (claim_inv' _ _ _ _ E) as (b & y & _ & _ & _ & Hy & Hb & ->). unfold pay. destruct (Z.ltb_spec 0 y); [|apply HS].
    apply pay_sharp; auto. lia.
  - destruct (deliver_inv' _ _ _ _ _ Hc (wi_wfs _ _ W) E) as (v & pl & A & Hh).
    assert (Hg : good_collector (consume s (va_digest v))) by apply (wf_coll _ _ (wi_wfs _ _ W)).
    assert (HS0 : sharp (consume s (va_digest v))). { destruct HS as [X S]. split; [eapply exact_core; [|exact X]; repeat split|exact S]. }
    destruct Hh as [|i s1 _ Hd H|t s1 _ Hd _ _ H Ht _ Hm]; [apply HS0| |].
    + eapply (tried_sharp c i); [exact Hg|by eapply decode_index_lt|by apply applied_tried|done].
    + assert (HS1 : sharp s1) by (eapply tried_sharp; [exact Hg|by eapply decode_token_lt|exact H|done]).
      destruct (Z.eq_dec (tk_amount t) 0) as [E0|N0].
      * unfold issued. rewrite E0. apply HS1.
      * refine (proj2 (hold_label (LIssue _ (tk_amount t)) s1 _ (proj1 (proj1 HS1))) I (proj1 HS1)). split; [lia|done].
  - destruct HS as [X _]. refine (calm_exact s s' _ X). intros T. destruct (step_multi _ _ _ _ _ Hc W E T) as (T' & S & D).
    rewrite H0 in D. split; [done|]. split; [done|]. intros L. specialize (D L). lia.
Qed.
Lemma spread_nonneg s o c : succeeds c s o = true -> 0 <= spread s o.
Proof.
  destruct o; cbn [spread]; try done. case_decide; [|done]. unfold succeeds. destruct outputs; [|cbn [length]; lia].
  cbn. unfold bind, gets. repeat case_match; done.
Qed.
Lemma count_nonneg (f : state -> op -> Z) c s l : (forall s o, succeeds c s o = true -> 0 <= f s o) -> 0 <= count_ops f c s l.
Proof.
  intros Hf. revert s. induction l as [|o l IH]; intros s; cbn [count_ops]; [done|]. specialize (IH (step c s o)).
  destruct (succeeds c s o) eqn:E; [specialize (Hf s o E)|]; lia.
Qed.

Theorem holders_exact c s0 ops : chain_ok c -> fresh c s0 -> Forall orderly (history c s0 ops) -> count_ops spread c s0 ops = 0 -> transfer_count (run c s0 ops) < 2 ^ 64 ->
  holders (run c s0 ops) = holder_count (run c s0 ops).
Proof.
  intros Hc Hf HF Hq Hn. enough (exact (run c s0 ops)) as [_ H]; [by apply H|]. clear Hn.
  assert (W : winv c s0) by (by apply winv_fresh). assert (X : exact s0) by (by eapply tally_fresh). clear Hf. revert s0 W X HF Hq.
  induction ops as [|o l IH]; intros s W X HF Hq; [done|]. cbn [history count_ops] in HF, Hq. apply Forall_cons in HF as [Ho HF]. rewrite run_cons.
  pose proof (count_nonneg spread c (step c s o) l ltac:(intros; by eapply spread_nonneg)) as N1.
  assert (N2 : count_ops spread c (step c s o) l = 0).
  { destruct (succeeds c s o) eqn:E; [pose proof (spread_nonneg _ _ _ E)|]; lia. }
  apply IH; [| |done|done]; destruct (step_cases c s o) as [->|H]; auto; [by eapply winv_step|]. eapply step_exact; eauto; [|by split].
  assert (succeeds c s o = true) as Es by (unfold succeeds; by rewrite H). rewrite Es in Hq. lia.
Qed.

(** * How far the statistic can be off *)
Definition newp (s : state) (a : addr) : Prop := (match a with AUser _ => False | _ => True end) /\ ordinary a /\ bal s a = 0.
Global Instance newp_dec s a : Decision (newp s a).
Proof. unfold newp, ordinary. apply and_dec; [destruct a; apply _|apply _]. Defined.
Definition newset (s s' : state) : gset addr := dom (filter (fun kv : addr * Z => newp s kv.1 /\ kv.2 <> 0) (bk_bal (st_bank s'))).
Lemma newly_size s s' : newly_funded s s' = Z.of_nat (size (newset s s')).
Proof.
  unfold newly_funded, newset. set (m := bk_bal (st_bank s')). clearbody m.
  change (map_fold _ 0 m) with (fsum (fun a (z : Z) => match a with AUser _ => 0 | _ => if decide (a <> ModuleA /\ a <> YieldA /\ bal s a = 0 /\ z <> 0) then 1 else 0 end) m).
  rewrite (fsum_ext _ (fun a (z : Z) => if decide (newp s a /\ z <> 0) then 1 else 0)).
  2:{ intros a z _. unfold newp, ordinary. destruct a; repeat case_decide; tauto. }
  induction m as [|k v m Hk IH] using map_ind; [done|]. rewrite fsum_insert_fresh by done. rewrite IH. clear IH. case_decide as D.
  - rewrite map_filter_insert_True by done. rewrite dom_insert_L, size_union.
    + rewrite size_singleton. lia.
    + intros x ->%elem_of_singleton Hx%elem_of_dom. destruct Hx as [? Hx]. apply map_filter_lookup_Some in Hx. naive_solver congruence.
  - rewrite map_filter_insert_not'; [lia|done|]. intros y Hy. congruence.
Qed.
Lemma elem_newset s s' a : a ∈ newset s s' <-> newp s a /\ bal s' a <> 0.
Proof.
  unfold newset. rewrite elem_of_dom. split.
  - intros [z Hz]. apply map_filter_lookup_Some in Hz as [Hz [H1 H2]]. split; [done|]. unfold bal. by rewrite Hz.
  - intros [H1 H2]. unfold bal in H2. destruct (bk_bal (st_bank s') !! a) as [z|] eqn:E; [|done]. exists z. by apply map_filter_lookup_Some.
Qed.
Lemma newly_mono s s1 s2 : (forall a, newp s a -> bal s1 a <> 0 -> bal s2 a <> 0) -> newly_funded s s1 <= newly_funded s s2.
Proof.
  intros H. rewrite !newly_size. apply inj_le, subseteq_size. intros a. rewrite !elem_newset. intros [? ?]. auto.
Qed.
Lemma newly_more s s1 s2 a : (forall a, newp s a -> bal s1 a <> 0 -> bal s2 a <> 0) -> newp s a -> bal s1 a = 0 -> bal s2 a <> 0 ->
  newly_funded s s1 + 1 <= newly_funded s s2.
Proof.
  intros H Ha H1 H2. rewrite !newly_size. assert (newset s s1 ∪ {[a]} ⊆ newset s s2) as L%subseteq_size.
  { intros b. rewrite elem_of_union, elem_of_singleton, !elem_newset. intros [[? ?]| ->]; auto. }
  rewrite size_union in L; [rewrite size_singleton in L; lia|]. intros b Hb%elem_newset ->%elem_of_singleton. by destruct Hb.
Qed.
Lemma newly_nonneg s s' : 0 <= newly_funded s s'.
Proof. rewrite newly_size. lia. Qed.

Record funding (s0 s : state) : Prop := {
  fu_tally : tally s;
  fu_grow : forall a, ordinary a -> bal s0 a <> 0 -> bal s a <> 0;
  fu_sends : sends s0 <= sends s;
  fu_drift : sends s < 2 ^ 64 -> drift s <= drift s0 + newly_funded s0 s }.
Lemma funding_core s0 s s' : same_core s s' -> funding s0 s -> funding s0 s'.
Proof.
  intros C [F1 F2 F3 F4]. constructor; [by eapply tally_core| | |].
  - intros a. rewrite (core_bal _ _ a C). auto.
  - destruct C as (C1 & _). unfold sends in *. by rewrite C1.
  - destruct C as (C1 & _ & _ & C4). unfold drift, sends, holder_count, newly_funded in *. by rewrite C1, C4.
Qed.
Lemma funding_label l s0 s : cpre l s -> match l with LSend f t _ => f = t | LBurn _ _ | LTally _ => False | LPay (AUser _) _ => False | LRelay _ _ => bal s StakedA <> 0 | _ => True end ->
  funding s0 s -> funding s0 (capply l s).
Proof.
  intros Hp Hl [F1 F2 F3 F4]. destruct (drift_label l s Hp F1) as [T D]. pose proof (sends_label l s Hp) as [S1 _].
  pose proof (ta_bal _ F1) as Hb.
  assert (G : forall a, ordinary a -> bal s a <> 0 -> bal (capply l s) a <> 0).
  { intros a [A1 A2] N. specialize (Hb a). destruct l as [f t amt|b y|y yp|t y|i n d|to amt|from amt|k]; cbn [cpre capply] in *; [subst t| | | | | |done|done].
    - rewrite bal_send. unfold ind. case_decide; lia.
    - rewrite bal_send. unfold ind. rewrite (decide_False (P := a = YieldA)) by done. case_decide; lia.
    - change (bal (shiftp ?x ?z) a) with (bal x a). rewrite bal_send. unfold ind. rewrite (decide_False (P := a = YieldA)) by done. case_decide; lia.
    - rewrite !bal_send. unfold ind. rewrite (decide_False (P := a = YieldA)) by done. repeat case_decide; lia.
    - rewrite bal_accrued by apply Hp. unfold ind. rewrite decide_False by done. lia.
    - rewrite bal_issued by (lia || apply Hp). unfold ind. case_decide; lia. }
  constructor; [done|auto|lia|]. intros L. specialize (D L). specialize (F4 ltac:(lia)).
  enough (newly_funded s0 s + missed l s <= newly_funded s0 (capply l s)) by lia.
  assert (M : forall a, newp s0 a -> bal s a <> 0 -> bal (capply l s) a <> 0) by (intros a (_ & Ha & _); auto).
  assert (H0 : missed l s = 0 -> newly_funded s0 s + missed l s <= newly_funded s0 (capply l s)).
  { intros ->. rewrite Z.add_0_r. by apply newly_mono. }
  assert (H1 : forall a, match a with AUser _ => False | _ => True end -> ordinary a -> bal s a = 0 -> bal (capply l s) a <> 0 -> missed l s = 1 ->
     newly_funded s0 s + missed l s <= newly_funded s0 (capply l s)).
  { intros a Hu Ha E N ->. apply (newly_more s0 s _ a); auto. split; [done|]. split; [done|]. destruct (Z.eq_dec (bal s0 a) 0); [done|]. by destruct (F2 a Ha). }
  destruct l as [f t amt|b y|y yp|t y|i n d|to amt|from amt|k]; try (by apply H0).
  - destruct (Z.eq_dec (bal s b) 0) as [E|N]; [|apply H0; cbn; by rewrite (proj2 (Z.eqb_neq _ _) N)].
    destruct Hp as (P1 & P2 & P3). apply (H1 b); [by destruct b|done|done| |cbn [missed]; by rewrite E].
    cbn [capply]. rewrite bal_send, E. unfold ind. rewrite decide_False, decide_True by (done || apply P3). lia.
  - destruct (Z.eq_dec (bal s FlexibleA) 0) as [E|N]; [|apply H0; cbn [missed]; by rewrite (proj2 (Z.eqb_neq _ _) N)].
    destruct Hp as (P1 & P2 & P3). apply (H1 FlexibleA); [done|done|done| |cbn [missed]; by rewrite E].
    cbn [capply]. change (bal (shiftp ?x ?z) FlexibleA) with (bal x FlexibleA). rewrite bal_send, E. unfold ind. rewrite decide_False, decide_True by done. lia.
  - apply H0. cbn [missed]. by rewrite (proj2 (Z.eqb_neq _ _) Hl).
Qed.
Lemma funding_refl s : tally s -> funding s s.
Proof. intros T. constructor; auto; [lia|]. intros _. pose proof (newly_nonneg s s). lia. Qed.

(** The staked vault keeps no principal without balance once season one is over. *)
Definition relayed (s : state) : Prop := v_ended (st_vaults s) = true -> bal s StakedA = 0 -> prin s StakedA <= 0.
Lemma relayed_same s s' : st_vaults s' = st_vaults s -> bal s' StakedA = bal s StakedA -> prin s' StakedA = prin s StakedA -> relayed s -> relayed s'.
Proof. intros E1 E2 E3. unfold relayed. by rewrite E1, E2, E3. Qed.

Lemma pay_funding s0 s a y : (match a with AUser _ => False | _ => True end) -> ordinary a -> y = yield_of s a -> y <= bal s YieldA \/ y = 0 ->
  funding s0 s /\ relayed s -> funding s0 (pay s a y) /\ relayed (pay s a y).
Proof.
  intros Hu Ha Hy Hb [F R]. unfold pay. destruct (Z.ltb_spec 0 y); [|done].
  assert (Hc : cpre (LPay a y) s) by (split; [lia|done]). split; [apply (funding_label (LPay a y)); [done|by destruct a|done]|].
  intros He. rewrite bal_send, prin_yield. change (st_vaults (send_result s YieldA a y)) with (st_vaults s) in He. intros E. apply R; [done|].
  unfold ind in E. rewrite (decide_False (P := StakedA = YieldA)) in E by done. pose proof (ta_bal _ (fu_tally _ _ F) StakedA). case_decide; lia.
Qed.
Lemma upd_funding c i s0 s s' : good_collector s -> upd c i s s' -> funding s0 s /\ relayed s -> funding s0 s' /\ relayed s'.
Proof.
  intros Hg Hu HF.
  destruct Hu as [a y Ha Hy Hp|fy s1 He Hf Hb -> Hz|fy s1 sy yp He Hf Hb Es1 Hsy Hpos Hyp|y He Hy Hp|a amt Ha Hp|s' Hbk].
  - pose proof (pay_funding s0 s a y) as H. unfold pay in H. rewrite (proj2 (Z.ltb_lt 0 y)) in H by lia.
    assert (match a with AUser _ => False | _ => True end) by (by destruct Ha as [->|[->|[->|[? ->]]]]).
    apply H; [done|by apply holder_ordinary|done|lia|done].
  - pose proof (pay_funding s0 s FlexibleA fy ltac:(done) ltac:(done) Hf Hb HF) as [H R]. split; [|exact R].
    eapply funding_core; [|exact H]. repeat split.
  - pose proof (pay_funding s0 s FlexibleA fy ltac:(done) ltac:(done) Hf Hb HF) as [H R]. rewrite <- Es1 in H, R.
    assert (He1 : v_ended (st_vaults s1) = false) by (rewrite Es1; unfold pay; by destruct (0 <? fy)).
    assert (Hc : cpre (LStaked sy yp) s1) by done. pose proof (funding_label _ _ _ Hc I H) as H2. split; [eapply funding_core; [|exact H2]; repeat split|].
    unfold relayed. change (v_ended (st_vaults (record_reward ?x ?y ?z))) with (v_ended (st_vaults x)).
    change (v_ended (st_vaults (shiftp (send_result ?x ?a ?b ?d) ?y))) with (v_ended (st_vaults x)). congruence.
  - destruct HF as [F R]. pose proof (ta_bal _ (fu_tally _ _ F)) as T1. pose proof (ta_index _ (fu_tally _ _ F)) as T4.
    assert (N : bal s StakedA <> 0).
    { intros E. specialize (R He E). pose proof (yield_prin s StakedA T4 (T1 _)). lia. }
    assert (Hc : cpre (LRelay (v_collector (st_vaults s)) y) s) by done. split; [apply (funding_label _ _ _ Hc N F)|].
    intros _ E. exfalso. pose proof (fu_grow _ _ (funding_label _ _ _ Hc N (funding_refl s (fu_tally _ _ F))) StakedA ltac:(done) N). done.
  - destruct HF as [F R]. assert (Ho : ordinary a) by (destruct Ha as [->|[? ->]]; done).
    assert (Hc : cpre (LSend a a amt) s) by done. split; [apply (funding_label _ _ _ Hc eq_refl F)|].
    assert (a <> StakedA) by (by destruct Ha as [->|[? ->]]).
    apply (relayed_same s); [done| | |done]; [rewrite bal_send|rewrite prin_send by apply Ho]; unfold ind; rewrite decide_False by done; lia.
  - destruct Hbk as (? & ? & ? & ? & ? & -> & _). destruct HF as [F R]. split; [eapply funding_core; [|exact F]; repeat split|exact R].
Qed.
Lemma upds_funding c i s0 s s' : good_collector s -> upds c i s s' -> funding s0 s /\ relayed s -> funding s0 s' /\ relayed s'.
Proof.
  intros Hg Hu. revert Hg. induction Hu as [|s s1 s2 H1 H2 IH]; [done|]. intros Hg HS.
  apply IH; [|by eapply upd_funding]. apply (upd_frame' c i s s1 (upds_one _ _ _ _ H1) Hg).
Qed.
Lemma tried_funding c i s0 s s' : good_collector s -> i < 2 ^ 63 -> index_tried c i s s' -> funding s0 s /\ relayed s -> funding s0 s'.
Proof.
  intros Hg Hi [[_ ->]|(H1 & n & d & H2 & H3 & H4 & H5)] [F R]; [done|].
  eapply (upds_funding c i s0); [|exact H5|]; [by apply accrued_good|].
  assert (Hc : cpre (LAccrue i n d) s). { split; [done|]. split; [done|]. split; [done|]. destruct H4 as [?|(? & ? & ? & _)]; auto. }
  split; [apply (funding_label _ _ _ Hc I F)|]. apply (relayed_same s); [| | |done].
  - by destruct (frame_accrued s i n d) as (_ & _ & _ & _ & _ & _ & _ & _ & _ & _ & -> & _).
  - rewrite bal_accrued by done. unfold ind. rewrite decide_False by done. lia.
  - unfold prin. by destruct (frame_accrued s i n d) as (_ & -> & _).
Qed.
Lemma deliver_funding c x bz s s' : chain_ok c -> winv c s -> exec c (OpDeliver x bz) s = Ok s' tt -> relayed s -> tally s -> funding s s'.
Proof.
  intros Hc W E R T. destruct (deliver_inv' _ _ _ _ _ Hc (wi_wfs _ _ W) E) as (v & pl & A & Hh).
  assert (Hg : good_collector (consume s (va_digest v))) by apply (wf_coll _ _ (wi_wfs _ _ W)).
  assert (F0 : funding s (consume s (va_digest v)) /\ relayed (consume s (va_digest v))).
  { split; [eapply funding_core; [|by apply funding_refl]; repeat split|exact R]. }
  destruct Hh as [|i s1 _ Hd H|t s1 _ Hd _ _ H Ht _ Hm]; [apply F0| |].
  - eapply (tried_funding c i); [exact Hg|by eapply decode_index_lt|by apply applied_tried|done].
  - assert (F1 : funding s s1) by (eapply tried_funding; [exact Hg|by eapply decode_token_lt|exact H|done]).
    destruct (Z.eq_dec (tk_amount t) 0) as [E0|N0].
    + unfold issued. rewrite E0. apply F1.
    + apply (funding_label (LIssue _ (tk_amount t)) s s1); [|done|done]. split; [lia|done].
Qed.

Lemma step_drift c o s s' : chain_ok c -> winv c s -> exec c o s = Ok s' tt -> relayed s -> tally s ->
  tally s' /\ sends s <= sends s' /\ (sends s' < 2 ^ 64 -> drift s' <= drift s + uncounted c s o).
Proof.
  intros Hc W E R T.
  assert (Hs : step c s o = s') by (unfold step; by rewrite E).
  destruct o; try (destruct (step_calm _ _ _ _ Hc W E I T) as (T' & S & D); cbn [uncounted spread]; rewrite Z.add_0_r; by auto).
  - destruct (claim_inv' _ _ _ _ E) as (b & y & Hd & _ & _ & Hy & Hb & E'). cbn [uncounted]. rewrite Hs, Hd. rewrite E' in *. clear E E' Hs.
    unfold pay. destruct (Z.ltb_spec 0 y); [|split; [done|]; split; [lia|]; intros _; case_decide; lia].
    assert (Hcp : cpre (LPay (AUser b) y) s) by (split; [lia|done]). destruct (drift_label _ _ Hcp T) as [T' D]. pose proof (sends_label _ _ Hcp) as [S _].
    split; [exact T'|]. split; [exact S|]. intros L. specialize (D L). cbn [missed capply] in D. case_decide as Dc; [destruct (bal s (AUser b) =? 0); lia|].
    destruct (Z.eqb_spec (bal s (AUser b)) 0) as [E0|]; [|lia]. exfalso. apply Dc. split; [done|]. rewrite bal_send, E0. unfold ind. rewrite decide_False, decide_True by done. lia.
  - destruct (deliver_funding _ _ _ _ _ Hc W E R T) as [F1 F2 F3 F4]. cbn [uncounted]. rewrite Hs. auto.
  - exact (step_multi _ _ _ _ _ Hc W E T).
Qed.
Theorem holders_drift c s0 ops : chain_ok c -> fresh c s0 ->
  Forall (fun s => v_ended (st_vaults s) = true -> bal s StakedA = 0 -> prin s StakedA <= 0) (history c s0 ops) ->
  transfer_count (run c s0 ops) < 2 ^ 64 ->
  holder_count (run c s0 ops) - count_ops (uncounted c) c s0 ops <= holders (run c s0 ops) <= holder_count (run c s0 ops).
Proof.
  intros Hc Hf HF Hn.
  enough (tally (run c s0 ops) /\ (sends (run c s0 ops) < 2 ^ 64 -> drift (run c s0 ops) <= 0 + count_ops (uncounted c) c s0 ops)) as [[_ B _ _] D].
  { specialize (D Hn). unfold drift in D. lia. }
  clear Hn. assert (W : winv c s0) by (by apply winv_fresh). destruct (tally_fresh _ _ Hf) as [T X].
  assert (X0 : sends s0 < 2 ^ 64 -> drift s0 <= 0) by (intros L; unfold drift; specialize (X L); lia). clear Hf X.
  assert (HF' : Forall relayed (history c s0 ops)) by (eapply Forall_impl; [exact HF|]; intros s H He; exact (H He)).
  clear HF. revert s0 W T HF' X0. generalize 0 as k.
  induction ops as [|o l IH]; intros k s W T HF X0; cbn [count_ops]; [by rewrite Z.add_0_r|]. cbn [history] in HF. apply Forall_cons in HF as [Ho HF]. rewrite run_cons.
  rewrite Z.add_assoc. unfold succeeds, step in *. destruct (exec c o s) as [s' []| |] eqn:E; [|rewrite Z.add_0_r; by apply IH..].
  destruct (step_drift c o s s' Hc W E Ho T) as (T' & S & D). apply IH; [by eapply winv_step|done|done|]. intros L. specialize (D L). specialize (X0 ltac:(lia)). lia.
Qed.
