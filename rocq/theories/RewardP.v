(** The reward records of the flexible vault. *)
From Verif Require Export WithdrawP.

(** * One record *)
Lemma chop_bounds z : 0 <= z -> 0 <= dec_chop_round z /\ dec_chop_round z * e18 <= z + e18 / 2.
Proof.
  intros Hz. unfold dec_chop_round. rewrite (Z.abs_eq z) by done. rewrite (proj2 (Z.ltb_ge z 0)) by done.
  assert (He : e18 / 2 = 500000000000000000) by reflexivity. rewrite He.
  pose proof (Z.div_mod z e18 ltac:(done)) as Hd. pose proof (Z.mod_pos_bound z e18 ltac:(done)) as Hm.
  assert (0 <= z / e18) by (apply Z.div_pos; done).
  set (q := z / e18) in *. set (m := z mod e18) in *. unfold e18 in *. clearbody q m.
  destruct (Z.ltb_spec m 500000000000000000); [lia|]. destruct (Z.ltb_spec 500000000000000000 m); [lia|].
  destruct (Z.even q); lia.
Qed.
Lemma ur_bounds r ap : 0 < rw_total r <= e18 -> 0 <= rw_rewards r -> 0 <= ap <= rw_total r ->
  0 <= ur r ap <= rw_rewards r.
Proof.
  intros Ht Hr Ha. unfold ur. set (T := rw_total r) in *. set (W := rw_rewards r) in *. clearbody T W. clear r.
  set (N := Z.quot (W * e18 * e18 * e18) (T * e18)).
  assert (HN : 0 <= N /\ N * T <= W * e18 * e18).
  { subst N. rewrite Z.quot_div_nonneg by (unfold e18 in *; lia).
    replace (W * e18 * e18 * e18) with (W * e18 * e18 * e18) by done.
    rewrite Z.div_mul_cancel_r by (unfold e18 in *; lia).
    split; [apply Z.div_pos; unfold e18 in *; lia|].
    rewrite Z.mul_comm. apply Z.mul_div_le. lia. }
  destruct HN as [HN0 HN]. destruct (chop_bounds N HN0) as [Hq0 Hq]. set (q := dec_chop_round N) in *. clearbody q N.
  assert (HqT : q * T <= W * e18 + T / 2 + 1).
  { assert (q * e18 * T <= (N + e18 / 2) * T) by (apply Z.mul_le_mono_nonneg_r; lia).
    change (e18 / 2) with 500000000000000000 in *. unfold e18 in *. lia. }
  assert (H1 : 0 <= q * ap) by (apply Z.mul_nonneg_nonneg; lia).
  rewrite Z.quot_div_nonneg by (unfold e18 in *; lia). split; [apply Z.div_pos; unfold e18 in *; lia|].
  apply Z.lt_succ_r, Z.div_lt_upper_bound; [done|].
  assert (H2 : q * ap <= q * T) by (apply Z.mul_le_mono_nonneg_l; lia).
  unfold e18 in *. lia.
Qed.
Lemma ur_nonneg r ap : live r = true -> 0 <= ap -> 0 <= ur r ap.
Proof.
  unfold live. intros [H1%Z.ltb_lt H2%Z.ltb_lt]%andb_true_iff Ha. unfold ur. apply Z.quot_pos; [|done].
  apply Z.mul_nonneg_nonneg; [|done]. apply chop_bounds. apply Z.quot_pos; unfold e18; lia.
Qed.
Lemma rpay_nonneg ci ap r : 0 <= ap -> 0 <= rpay ci ap r.
Proof. intros Ha. unfold rpay. destruct (live r) eqn:E; [|done]. destruct (negb _); [|done]. by apply ur_nonneg. Qed.

(** * Settling *)
Lemma settle_lookup ci ap pi m k : settle_map ci ap pi m !! k = (fun r => if pi <? k then rsettle ci ap r else r) <$> m !! k.
Proof. unfold settle_map. rewrite map_lookup_imap. by destruct (m !! k). Qed.
Lemma fsum_imap {A} (g : Z -> A -> A) (f : Z -> A -> Z) (m : gmap Z A) :
  fsum f (map_imap (fun k a => Some (g k a)) m) = fsum (fun k a => f k (g k a)) m.
Proof.
  induction m as [|k x m Hk IH] using map_ind.
  - replace (map_imap (fun k a => Some (g k a)) ∅) with (∅ : gmap Z A); [done|]. apply map_eq. intros i. by rewrite map_lookup_imap, !lookup_empty.
  - replace (map_imap (fun k a => Some (g k a)) (<[k := x]> m)) with (<[k := g k x]> (map_imap (fun k a => Some (g k a)) m)).
    + rewrite !fsum_insert_fresh, IH; [done..|]. by rewrite map_lookup_imap, Hk.
    + apply map_eq. intros i. rewrite map_lookup_imap. destruct (decide (i = k)) as [->|Hne]; [by rewrite !lookup_insert|].
      rewrite !lookup_insert_ne by done. by rewrite map_lookup_imap.
Qed.
Definition left_over (m : gmap Z reward) : Z := fsum (fun _ r => rw_rewards r) m.
Lemma left_over_settle ci ap pi m : left_over (settle_map ci ap pi m) = left_over m - rsum ci ap pi m.
Proof.
  unfold left_over, settle_map, rsum. rewrite (fsum_imap (fun k r => if pi <? k then rsettle ci ap r else r)).
  enough (fsum (fun (k : Z) r => rw_rewards (if pi <? k then rsettle ci ap r else r)) m + fsum (fun k r => if pi <? k then rpay ci ap r else 0) m
    = fsum (fun _ r => rw_rewards r) m) by lia.
  rewrite <- fsum_add. apply fsum_ext. intros k r _. destruct (pi <? k); [|lia]. unfold rsettle, rpay.
  destruct (live r); cbn [andb rw_rewards]; lia.
Qed.

(** The rewards of one position, as settled by an unlock. *)
Inductive settled (s : state) (p : position) (part : Z) : gmap Z reward -> Z -> Prop :=
| set_not : prin s FlexibleA <= 0 -> settled s p part (v_rewards (st_vaults s)) 0
| set_all : 0 < prin s FlexibleA ->
    settled s p part (settle_map (current_index s) (down part (pos_index p)) (pos_index p) (v_rewards (st_vaults s)))
      (rsum (current_index s) (down part (pos_index p)) (pos_index p) (v_rewards (st_vaults s))).
Lemma unl1_rewards c g b p part s s' : codec_ok c -> c_dec c g = Some (AUser b) -> unl1 g (AUser b) FLEXIBLE p part s s' ->
  exists rew y, flex_paid c (AUser b) (pos_time p) part rew y s s' /\ settled s p part (v_rewards (st_vaults s')) rew /\
    vs_flex_distributed (v_stats (st_vaults s')) = vs_flex_distributed (v_stats (st_vaults s)) + rew /\
    current_index s' = current_index s /\ y = yield_of s (vault_account c FLEXIBLE (AUser b) (pos_time p)).
Proof.
  intros Hc Hd H. inversion H as [Hn|s2 rew y _ Hrw Hy Hy1 Hp]; [done|]. subst s'. unfold pacct in *.
  rewrite (posacct c g (AUser b)) in * by done. set (h := vault_account c FLEXIBLE (AUser b) (pos_time p)) in *.
  destruct (flex_account_not c (AUser b) (pos_time p)) as (N1 & N2 & N3 & N4 & N5 & _ & N6 & _). fold h in N1, N2, N3, N4, N5, N6.
  assert (Hy0 : 0 <= y) by (subst y; apply yield_of_nonneg).
  assert (HB : (0 <= rew /\ forall x, bal s2 x = bal s x + ind (x = AUser b) rew - ind (x = FlexibleA) rew) /\
    settled s p part (v_rewards (st_vaults s2)) rew /\ v_stats (st_vaults s2) = v_stats (st_vaults s) /\ current_index s2 = current_index s /\
    yield_of s2 h = yield_of s h).
  { inversion Hrw as [Hz|tot Hp1 Ht Ht0 Ht1]; subst.
    - split.
      + split; [lia|]. intros x. unfold ind. change (bal (sub_flex s (down part (pos_index p))) x) with (bal s x). repeat case_decide; lia.
      + split; [by apply (set_not s)|done].
    - set (tot := rsum _ _ _ _) in *.
      split; [|split; [|split; [|split]]].
      + split; [done|]. intros x. unfold rewarded. rewrite bal_xfer by done. change (v_rewards _) with (v_rewards (st_vaults s)).
        change (bal (set_rewards _ _) x) with (bal s x). change (current_index (sub_flex s _)) with (current_index s). done.
      + unfold rewarded. rewrite xfer_vaults. by apply (set_all s).
      + unfold rewarded. by rewrite xfer_vaults.
      + unfold rewarded, xfer. by case_match.
      + unfold rewarded. unfold xfer. case_match; [|done]. unfold yield_of.
        assert (HA : forall z, bal (send_result z FlexibleA (AUser b) tot) h = bal z h).
        { intros z. rewrite bal_send. unfold ind. rewrite !decide_False by done. lia. }
        assert (HP : forall z, prin (send_result z FlexibleA (AUser b) tot) h = prin z h).
        { intros z. rewrite prin_send by done. unfold ind. rewrite !decide_False by done. lia. }
        fold tot. rewrite HA, HP. done. }
  destruct HB as ([Hr0 HB] & HS & HV & HI & HYY). exists rew, y. split; [|split; [|split; [|split]]].
  - constructor; [done|done|]. intros x. change (bal (upos ?z _ _ _ _ _) x) with (bal z x). rewrite bal_send, bal_pay' by done.
    change (bal (add_dist s2 rew) x) with (bal s2 x). rewrite HB. fold h. unfold ind.
    destruct (decide (x = AUser b)), (decide (x = FlexibleA)), (decide (x = YieldA)), (decide (x = h)); try congruence; lia.
  - change (v_rewards (st_vaults (upos ?z _ _ _ _ _))) with (v_rewards (st_vaults z)). rewrite vaults_send, pay_vaults. done.
  - change (v_stats (st_vaults (upos ?z _ _ _ _ _))) with (v_stats (st_vaults z)). rewrite vaults_send, pay_vaults. cbn. by rewrite HV.
  - change (current_index (upos ?z _ _ _ _ _)) with (current_index z). rewrite index_send, <- HI. unfold pay. by destruct (0 <? y).
  - subst y. rewrite <- HYY. done.
Qed.

(** * The invariant *)
(** Rounded stakes opened below an index. *)
Definition below (k : Z) (m : gmap (addr * Z * Z) position) : Z :=
  fsum (fun key p => if (key.1.2 =? FLEXIBLE) && (pos_index p <? k) then rounded p else 0) m.
Record rinv (s : state) : Prop := {
  ri_key : forall k r, v_rewards (st_vaults s) !! k = Some r -> rw_index r = k /\ k <= current_index s;
  ri_rec : forall k r, v_rewards (st_vaults s) !! k = Some r ->
    0 <= rw_rewards r /\ below k (v_positions (st_vaults s)) <= rw_total r <= e18;
  ri_sum : left_over (v_rewards (st_vaults s)) <= bal s FlexibleA
}.
Lemma below_le k s : prin_ok (v_positions (st_vaults s)) -> below k (v_positions (st_vaults s)) <= down_total s FLEXIBLE.
Proof.
  intros Hp. unfold down_total. rewrite position_sum_fsum. apply fsum_le. intros key p Hk. apply Hp in Hk as (H1 & H2 & _).
  pose proof (down_nonneg' (pos_amount p) (pos_index p) ltac:(lia) H2). unfold rounded.
  destruct (key.1.2 =? FLEXIBLE); cbn [andb]; [|lia]. destruct (_ <? _); lia.
Qed.
Lemma below_upos k a v p part m : prin_ok m -> m !! (a, v, pos_time p) = Some p -> 0 < part <= pos_amount p ->
  below k (upos_map a v p part m) <= below k m - (if (v =? FLEXIBLE) && (pos_index p <? k) then down part (pos_index p) else 0).
Proof.
  intros Hm Hp Hpart. destruct (Hm _ _ Hp) as (P1 & P2 & P3). unfold rounded in P3.
  pose proof (down_super (pos_amount p - part) part (pos_index p) ltac:(lia) ltac:(lia) P2) as H4.
  pose proof (down_nonneg' part (pos_index p) ltac:(lia) P2). pose proof (down_nonneg' (pos_amount p - part) (pos_index p) ltac:(lia) P2).
  replace (pos_amount p - part + part) with (pos_amount p) in H4 by lia.
  unfold below. rewrite fsum_upos by done. cbn [fst snd]. change (pos_index (cut p part)) with (pos_index p).
  change (rounded (cut p part)) with (down (pos_amount p - part) (pos_index p)). unfold rounded.
  destruct ((v =? FLEXIBLE) && (pos_index p <? k)); destruct (Z.leb_spec (pos_amount p) part); lia.
Qed.
Lemma below_part k a p part m : prin_ok m -> m !! (a, FLEXIBLE, pos_time p) = Some p -> 0 < part <= pos_amount p -> pos_index p < k ->
  0 <= down part (pos_index p) <= below k m.
Proof.
  intros Hm Hp Hpart Hk. destruct (Hm _ _ Hp) as (P1 & P2 & P3). unfold rounded in P3.
  pose proof (down_super (pos_amount p - part) part (pos_index p) ltac:(lia) ltac:(lia) P2) as H4.
  pose proof (down_nonneg' part (pos_index p) ltac:(lia) P2). pose proof (down_nonneg' (pos_amount p - part) (pos_index p) ltac:(lia) P2).
  replace (pos_amount p - part + part) with (pos_amount p) in H4 by lia. split; [done|].
  transitivity (rounded p); [unfold rounded; lia|].
  assert (HH : (fun (key : addr * Z * Z) p => if (key.1.2 =? FLEXIBLE) && (pos_index p <? k) then rounded p else 0) (a, FLEXIBLE, pos_time p) p <= below k m).
  { apply (fsum_elem_le (fun (key : addr * Z * Z) p => if (key.1.2 =? FLEXIBLE) && (pos_index p <? k) then rounded p else 0)); [|done].
    intros key q Hq. apply Hm in Hq as (Q1 & Q2 & _). pose proof (down_nonneg' (pos_amount q) (pos_index q) ltac:(lia) Q2).
    unfold rounded. destruct (_ && _); lia. }
  cbn [fst snd] in HH. rewrite Z.eqb_refl, (proj2 (Z.ltb_lt _ _)) in HH by done. exact HH.
Qed.

(** Unlocking one position. *)
Lemma rsum_nonneg ci ap pi m : 0 <= ap -> 0 <= rsum ci ap pi m.
Proof. intros Ha. apply fsum_nonneg. intros k r _. destruct (_ <? _); [by apply rpay_nonneg|done]. Qed.
Lemma settle_rinv s p part a : rinv s -> prin_ok (v_positions (st_vaults s)) ->
  v_positions (st_vaults s) !! (a, FLEXIBLE, pos_time p) = Some p -> 0 < part <= pos_amount p ->
  let m := v_rewards (st_vaults s) in let ci := current_index s in let ap := down part (pos_index p) in
  rsum ci ap (pos_index p) m <= left_over m /\
  forall k r, settle_map ci ap (pos_index p) m !! k = Some r ->
    (rw_index r = k /\ k <= ci) /\ 0 <= rw_rewards r /\
    below k (upos_map a FLEXIBLE p part (v_positions (st_vaults s))) <= rw_total r <= e18.
Proof.
  intros [R1 R2 R3] Hm Hp Hpart m ci ap. unfold m in *. clear m. set (m := v_rewards (st_vaults s)) in *.
  assert (HU : forall k r, m !! k = Some r -> pos_index p < k -> 0 <= rpay ci ap r <= rw_rewards r /\ 0 <= ap <= rw_total r).
  { intros k r Hk Hlt. destruct (R2 _ _ Hk) as (A1 & A2 & A3). destruct (below_part k a p part _ Hm Hp Hpart Hlt) as [B1 B2]. fold ap in B1, B2.
    split; [|lia]. unfold rpay. destruct (live r) eqn:El; cbn [andb]; [|lia]. destruct (negb _); [|lia].
    unfold live in El. apply andb_true_iff in El as [E1%Z.ltb_lt E2%Z.ltb_lt]. apply ur_bounds; lia. }
  split.
  - apply fsum_le. intros k r Hk. destruct (Z.ltb_spec (pos_index p) k); [|by apply R2 in Hk as [? _]]. by apply (HU k r).
  - intros k r'. rewrite settle_lookup. destruct (m !! k) as [r|] eqn:Hk; [|done]. cbn. intros [= <-].
    destruct (R1 _ _ Hk) as [K1 K2]. destruct (R2 _ _ Hk) as (A1 & A2 & A3).
    pose proof (below_upos k a FLEXIBLE p part _ Hm Hp Hpart) as HB. rewrite Z.eqb_refl in HB. cbn [andb] in HB. fold ap in HB.
    destruct (Z.ltb_spec (pos_index p) k) as [Hlt|Hge]; [|split; [done|lia]].
    destruct (HU _ _ Hk Hlt) as [[U1 U2] [U3 U4]]. unfold rsettle. destruct (live r) eqn:El; cbn [rw_index rw_rewards rw_total]; split; (done || lia).
Qed.
Lemma unl1_rinv c g b v p part s s' : codec_ok c -> c_dec c g = Some (AUser b) -> a_vault v -> rinv s -> prin_ok (v_positions (st_vaults s)) ->
  v_positions (st_vaults s) !! (AUser b, v, pos_time p) = Some p -> 0 < part <= pos_amount p ->
  v_positions (st_vaults s') = upos_map (AUser b) v p part (v_positions (st_vaults s)) ->
  unl1 g (AUser b) v p part s s' -> rinv s'.
Proof.
  intros Hc Hd Hv HR Hm Hp Hpart Hpos Hu. destruct Hv as [-> | ->].
  - destruct (unl1_staked _ _ _ _ _ _ Hu) as [_ HB]. destruct HR as [R1 R2 R3].
    assert (Er : v_rewards (st_vaults s') = v_rewards (st_vaults s)) by (by inversion Hu).
    assert (Ei : current_index s' = current_index s) by (by inversion Hu).
    constructor.
    + rewrite Er, Ei. done.
    + rewrite Er, Hpos. intros k r Hk. destruct (R2 _ _ Hk) as (A1 & A2 & A3). pose proof (below_upos k (AUser b) STAKED p part _ Hm Hp Hpart) as HH.
      cbn [andb Z.eqb] in HH. change (STAKED =? FLEXIBLE) with false in HH. cbn [andb] in HH. lia.
    + rewrite Er, HB. unfold ind. rewrite !decide_False by done. lia.
  - destruct (unl1_rewards c _ _ _ _ _ _ Hc Hd Hu) as (rew & y & [F1 F2 F3] & HS & _ & Ei & _).
    destruct (settle_rinv s p part (AUser b) HR Hm Hp Hpart) as [S1 S2].
    assert (HB : bal s' FlexibleA = bal s FlexibleA - rew).
    { rewrite F3. destruct (flex_account_not c (AUser b) (pos_time p)) as (N1 & N2 & N3 & N4 & _). unfold ind.
      rewrite (decide_True (P := FlexibleA = FlexibleA)) by done. rewrite !decide_False by done. lia. }
    remember (v_rewards (st_vaults s')) as m' eqn:Em. destruct HS as [Hz|Hz].
    + destruct HR as [R1 R2 R3]. constructor; rewrite <- Em.
      * by rewrite Ei.
      * rewrite Hpos. intros k r Hk. destruct (R2 _ _ Hk) as (A1 & A2 & A3).
        pose proof (below_upos k (AUser b) FLEXIBLE p part _ Hm Hp Hpart) as HH. destruct (Hm _ _ Hp) as (_ & P2 & _).
        pose proof (down_nonneg' part (pos_index p) ltac:(lia) P2). destruct (_ && _); lia.
      * rewrite HB. lia.
    + constructor; rewrite <- Em.
      * rewrite Ei. intros k r Hk. by apply S2 in Hk as [? _].
      * rewrite Hpos. intros k r Hk. by apply S2 in Hk as [_ ?].
      * rewrite HB, left_over_settle. destruct HR as [_ _ R3]. lia.
Qed.
Lemma unls_rinv c g b v l rem s rem' d s' : codec_ok c -> c_dec c g = Some (AUser b) -> a_vault v ->
  in_map (v_positions (st_vaults s)) (AUser b) v l -> 0 <= rem ->
  unls g (AUser b) v l rem s rem' d s' -> prin_ok (v_positions (st_vaults s)) -> rinv s -> rinv s'.
Proof.
  intros Hc Hd Hv Hm Hr H Hok HR.
  apply (unls_rel (fun s x d s' => prin_ok (v_positions (st_vaults s)) -> rinv s -> prin_ok (v_positions (st_vaults s')) /\ rinv s') g (AUser b) v)
    with (l := l) (d := d) in H as [_ H]; auto.
  - by apply H.
  - intros s0 x0 d0 s1 y0 e0 s2 _ _ A B H0 H1. destruct (A H0 H1). auto.
  - intros p part s0 s1 Hp Hpart E Hu H0 H1. split; [rewrite E; by apply prin_ok_upos|]. by eapply unl1_rinv.
Qed.

(** Index updates. *)
Lemma left_over_insert i r m : (forall k r, m !! k = Some r -> 0 <= rw_rewards r) ->
  left_over (<[i := r]> m) <= rw_rewards r + left_over m.
Proof.
  intros H. unfold left_over. rewrite fsum_insert. destruct (m !! i) as [q|] eqn:E.
  - rewrite (fsum_delete _ m i q) by done. specialize (H _ _ E). lia.
  - rewrite (fsum_delete_none _ m i) by done. lia.
Qed.
Lemma record_rinv s s1 i z : current_index s1 = i -> rinv s -> v_rewards (st_vaults s1) = v_rewards (st_vaults s) ->
  v_positions (st_vaults s1) = v_positions (st_vaults s) -> v_total_flex (st_vaults s1) = v_total_flex (st_vaults s) ->
  current_index s = i -> prin_ok (v_positions (st_vaults s)) -> down_total s FLEXIBLE <= v_total_flex (st_vaults s) <= e18 ->
  0 <= z -> bal s FlexibleA + z <= bal s1 FlexibleA -> rinv (record_reward s1 i z).
Proof.
  intros Hi [R1 R2 R3] Er Ep Et Hi0 Hok Ht Hz Hb. pose proof (below_le i s Hok).
  assert (Em : v_rewards (st_vaults (record_reward s1 i z)) = <[i := mk_reward i (v_total_flex (st_vaults s)) z]> (v_rewards (st_vaults s))).
  { unfold record_reward. cbn. by rewrite Et, Er. }
  constructor.
  - rewrite Em. change (current_index (record_reward s1 i z)) with (current_index s1). rewrite Hi. intros k r.
    rewrite lookup_insert_Some. intros [[<- <-]|[Hne Hk]]; [cbn; lia|]. apply R1 in Hk. lia.
  - rewrite Em. change (v_positions (st_vaults (record_reward s1 i z))) with (v_positions (st_vaults s1)). rewrite Ep. intros k r.
    rewrite lookup_insert_Some. intros [[<- <-]|[Hne Hk]]; [cbn; lia|]. by apply R2 in Hk.
  - rewrite Em. change (bal (record_reward s1 i z) FlexibleA) with (bal s1 FlexibleA).
    pose proof (left_over_insert i (mk_reward i (v_total_flex (st_vaults s)) z) (v_rewards (st_vaults s))) as HH. cbn in HH.
    assert (forall k r, v_rewards (st_vaults s) !! k = Some r -> 0 <= rw_rewards r) by (intros k r Hk; by apply R2 in Hk as [? _]). specialize (HH H0). lia.
Qed.
Lemma rinv_same s s' : rinv s -> v_rewards (st_vaults s') = v_rewards (st_vaults s) ->
  v_positions (st_vaults s') = v_positions (st_vaults s) -> current_index s <= current_index s' -> bal s FlexibleA <= bal s' FlexibleA -> rinv s'.
Proof.
  intros [R1 R2 R3] Er Ep Hi Hb. constructor.
  - rewrite Er. intros k r Hk. apply R1 in Hk. lia.
  - by rewrite Er, Ep.
  - rewrite Er. lia.
Qed.
Lemma upd_rinv c i s s' : upd c i s s' -> good_collector s -> current_index s = i -> prin_ok (v_positions (st_vaults s)) ->
  down_total s FLEXIBLE <= v_total_flex (st_vaults s) <= e18 -> rinv s -> rinv s'.
Proof.
  intros H Hg Hi Hok Ht HR. destruct H.
  - apply (rinv_same s); [done..|]. rewrite bal_send. unfold ind. rewrite (decide_False (P := _ = YieldA)) by done. case_decide; lia.
  - subst s1. pose proof (yield_of_nonneg s FlexibleA). apply (record_rinv s); try done; try by rewrite pay_vaults.
    + unfold pay. by destruct (0 <? fy).
    + lia.
    + rewrite bal_pay' by lia. unfold ind. rewrite decide_True by done. rewrite decide_False by done. lia.
  - subst s1. pose proof (yield_of_nonneg s FlexibleA). apply (record_rinv s); try done; try (by rewrite pay_vaults); try lia.
    + unfold pay. by destruct (0 <? fy).
    + unfold pay. by destruct (0 <? fy).
    + unfold pay. by destruct (0 <? fy).
    + unfold pay. by destruct (0 <? fy).
    + change (bal (shiftp ?z _) FlexibleA) with (bal z FlexibleA). rewrite bal_send, bal_pay' by lia. unfold ind.
      rewrite !(decide_True (P := FlexibleA = FlexibleA)) by done. rewrite !decide_False by done. lia.
  - apply (rinv_same s); [done..|]. rewrite !bal_send. unfold ind. rewrite !(decide_False (P := FlexibleA = YieldA)), !(decide_False (P := FlexibleA = StakedA)) by done. case_decide; lia.
  - apply (rinv_same s); [done..|]. rewrite !bal_send. unfold ind. case_decide; lia.
  - destruct H as (E & R & F & T & D & -> & _). by apply (rinv_same s).
Qed.
Lemma upds_rinv c i s s' : upds c i s s' -> good_collector s -> current_index s = i -> prin_ok (v_positions (st_vaults s)) ->
  down_total s FLEXIBLE <= v_total_flex (st_vaults s) <= e18 -> rinv s -> rinv s'.
Proof.
  induction 1 as [|s s1 s2 H1 H2 IH]; [done|]. intros Hg Hi Hok Ht HR.
  destruct (upd_frame _ _ _ _ H1 Hg) as (F1 & _ & _ & (F2 & _ & _ & F3 & F4 & _) & _).
  apply IH; [by destruct Hg; split; rewrite F2|congruence|by rewrite F3| |by eapply upd_rinv].
  unfold down_total in *. rewrite position_sum_fsum in *. by rewrite F3, F4.
Qed.

Definition deliver_op (o : op) : bool := match o with OpDeliver _ _ => true | _ => false end.
(** Messages that neither move stakes nor update the index keep the records. *)
Lemma rewards_same c o s s' : chain_ok c -> winv c s -> lock_op o = false -> deliver_op o = false -> exec c o s = Ok s' tt ->
  v_rewards (st_vaults s') = v_rewards (st_vaults s).
Proof.
  intros Hc [Hw Hp] Ho Hd H. destruct (plain_op o) eqn:Epl.
  { apply plain_frame in H as [Hv _ _ _ _ _ _ _]; auto. by rewrite Hv. }
  destruct (administrative o) eqn:Ead.
  { apply admin_inv in H; [|done]. destruct o; try discriminate; cbn [admin_result] in H; destruct_and?; subst; done. }
  by destruct o.
Qed.
Lemma op_index c o s s' : chain_ok c -> winv c s -> exec c o s = Ok s' tt -> current_index s <= current_index s'.
Proof. intros Hc Hw H. destruct (op_trace _ _ _ _ Hc Hw H) as (ls & Ht & _). by apply ctrace_index in Ht as [? _]. Qed.

Lemma accrued_rinv s i n d : current_index s < i -> 0 <= n -> rinv s -> rinv (accrued s i n d).
Proof.
  intros Hi Hn HR. assert (Hv : st_vaults (accrued s i n d) = st_vaults s) by (unfold accrued; by destruct (0 <? n)).
  assert (Hx : current_index (accrued s i n d) = i) by (unfold accrued; by destruct (0 <? n)).
  apply (rinv_same s); [done|by rewrite Hv|by rewrite Hv|lia|]. rewrite bal_accrued by done. unfold ind. rewrite decide_False by done. lia.
Qed.
Lemma issued_rinv s a x : rinv s -> rinv (issued s a x).
Proof.
  intros HR. unfold issued. destruct (Z.ltb_spec 0 x); [|done]. apply (rinv_same s); [done..|].
  rewrite bal_send, bal_mint. unfold ind. rewrite !(decide_False (P := FlexibleA = ModuleA)) by done. case_decide; lia.
Qed.
Lemma tried_rinv c i s s' : index_tried c i s s' -> good_collector s -> prin_ok (v_positions (st_vaults s)) ->
  down_total s FLEXIBLE <= v_total_flex (st_vaults s) <= e18 -> rinv s -> rinv s'.
Proof.
  intros [[_ ->]|(Hi & n & d & Hn & Hn0 & _ & HU)] Hg Hok Ht HR; [done|].
  assert (Hv : st_vaults (accrued s i n d) = st_vaults s) by (unfold accrued; by destruct (0 <? n)).
  eapply upds_rinv; [exact HU|unfold good_collector; by rewrite Hv| |by rewrite Hv| |by apply accrued_rinv].
  - unfold accrued; by destruct (0 <? n).
  - unfold down_total in *. rewrite position_sum_fsum in *. by rewrite Hv.
Qed.
Lemma applied_tried c i s s' : index_applied c i s s' -> index_tried c i s s'.
Proof. intros (Hi & n & Hn & H0 & HU). right. split; [done|]. exists n, n. auto. Qed.

Lemma rinv_step c o s s' k : chain_ok c -> winv c s -> totals_ok FLEXIBLE k s -> v_total_flex (st_vaults s) <= e18 ->
  exec c o s = Ok s' tt -> rinv s -> rinv s'.
Proof.
  intros Hc Hw HT Hsmall E HR. pose proof (to_pos _ _ _ HT) as Hok.
  assert (Ht : down_total s FLEXIBLE <= v_total_flex (st_vaults s) <= e18).
  { pose proof (down_total_le s FLEXIBLE Hok). rewrite (to_flex _ _ _ HT) in *. pose proof (to_low _ _ _ HT FLEXIBLE (or_intror eq_refl)). lia. }
  destruct (lock_op o) eqn:Ho.
  - destruct o; try discriminate.
    + destruct (lock_inv' _ _ _ _ _ _ Hc E) as (b & x & D & -> & H1 & H2 & H3 & H4 & H5 & H6 & Es).
      set (h := position_account signer vault (x_now (st_world s))) in *. destruct (lock_others s (AUser b) h vault x) as (L1 & L2 & L3 & _).
      rewrite <- Es in L1, L2, L3. pose proof (ok_min_lock _ Hc). destruct HR as [R1 R2 R3].
      assert (Ei : current_index s' = current_index s).
      { subst s'. unfold current_index. by rewrite lock_dollar. }
      assert (HP : v_positions (st_vaults s') = <[(AUser b, vault, x_now (st_world s)) := mk_position (down x (current_index s)) (current_index s) x (x_now (st_world s))]> (v_positions (st_vaults s))).
      { subst s'. apply lock_positions. }
      assert (HB : bal s' FlexibleA = bal s FlexibleA).
      { transitivity (bal (send_result s (AUser b) h x) FlexibleA); [subst s'; unfold bal; by rewrite lock_bank|].
        rewrite bal_send. unfold ind. subst h. rewrite !decide_False; [lia|..|done]. apply not_eq_sym. apply position_account_not. }
      constructor; rewrite L3.
      * by rewrite Ei.
      * intros kk r Hk. destruct (R1 _ _ Hk) as [_ K2]. rewrite HP. unfold below. rewrite fsum_insert_fresh by done. cbn [fst snd pos_index].
        rewrite (proj2 (Z.ltb_ge (current_index s) kk)) by done. rewrite andb_false_r. by apply R2.
      * by rewrite HB.
    + destruct Hw as [Hw Hp].
      destruct (unlock_inv' _ _ _ _ _ _ Hp E) as (b & x & d & s1 & D & -> & _ & _ & _ & H4 & H5 & H6 & Hu & ->).
      assert (Hx : 0 <= x) by lia.
      pose proof (unls_rinv c _ _ _ _ _ _ _ _ _ (ok_codec _ Hc) D H4 (in_map_positions s (AUser b) vault Hp) Hx Hu Hok HR) as HR1.
      by apply (rinv_same s1).
  - destruct (stakes_same _ _ _ _ Hc Hw Ho E) as (Ep & _ & _).
    destruct (deliver_op o) eqn:Hn; [destruct o; try discriminate|].
    + destruct Hw as [Hw Hp]. destruct (deliver_inv' _ _ _ _ _ Hc Hw E) as (v & pl & _ & HH).
      set (s0 := consume s (va_digest v)) in *. assert (HR0 : rinv s0) by (by apply (rinv_same s)).
      destruct HH as [|i s1 _ _ H|t s1 _ _ _ _ H _ _ _]; [done|..].
      * apply applied_tried in H. eapply tried_rinv; [exact H|apply Hw|done|done|done].
      * apply issued_rinv. eapply tried_rinv; [exact H|apply Hw|done|done|done].
    + apply (rinv_same s); [done| |done|by eapply op_index|].
      * eapply rewards_same; eauto.
      * eapply held_op; eauto. right. by left.
Qed.
Lemma rinv_fresh c s : fresh c s -> rinv s.
Proof.
  intros F. constructor.
  - rewrite (fresh_rewards _ _ F). intros k r. by rewrite lookup_empty.
  - rewrite (fresh_rewards _ _ F). intros k r. by rewrite lookup_empty.
  - rewrite (fresh_rewards _ _ F). unfold bal. rewrite (fresh_bank _ _ F). done.
Qed.
Lemma totals_history c s l k : chain_ok c -> winv c s -> totals_ok FLEXIBLE k s -> rinv s ->
  Forall flexible_small (history c s l) -> rinv (run c s l).
Proof.
  revert s k. induction l as [|o l IH]; intros s k Hc Hw HT HR HF; [done|].
  rewrite run_cons. cbn [history] in HF. apply Forall_cons in HF as [Hs HF].
  destruct (step_cases c s o) as [E|E]; [rewrite E in *; by eapply IH|].
  eapply IH; [done|by eapply winv_step|by eapply totals_step| |done].
  eapply rinv_step; [done|done|exact HT|exact Hs|exact E|done].
Qed.
Theorem rinv_run c s0 ops : chain_ok c -> fresh c s0 -> Forall flexible_small (history c s0 ops) -> rinv (run c s0 ops).
Proof.
  intros Hc Hf HF. eapply totals_history; [done|by apply winv_fresh|by eapply totals_fresh|by eapply rinv_fresh|done].
Qed.
Theorem rewards_backed c s0 ops : chain_ok c -> fresh c s0 -> Forall flexible_small (history c s0 ops) ->
  let s := run c s0 ops in
  (forall i r, rewards s !! i = Some r -> 0 <= rw_rewards r) /\ remaining_rewards s <= bal s FlexibleA.
Proof.
  intros Hc Hf HF s. destruct (rinv_run c s0 ops Hc Hf HF) as [_ R2 R3]. fold s in R2, R3. split; [|exact R3].
  intros i r Hr. by apply R2 in Hr as [? _].
Qed.
Theorem reward_payout c s0 ops a t p x : chain_ok c -> fresh c s0 -> Forall flexible_small (history c s0 ops) ->
  let s := run c s0 ops in
  ordinary_account a -> positions s !! (a, FLEXIBLE, t) = Some p -> 0 < x <= pos_amount p ->
  match claim_rewards a p x s with Err _ _ => False | _ => True end.
Proof.
  intros Hc Hf HF s [Ha1 Ha2] Hp Hx. pose proof (rinv_run c s0 ops Hc Hf HF) as HR. fold s in HR.
  assert (Hw : winv c s) by (apply winv_run; [done|by apply winv_fresh]).
  pose proof (to_pos _ _ _ (totals_run c s0 ops FLEXIBLE Hc Hf)) as Hok. fold s in Hok.
  destruct (wi_pos _ _ Hw _ _ Hp) as (_ & Ht & _). cbn in Ht. unfold positions in Hp. rewrite <- Ht in Hp.
  destruct (settle_rinv s p x a HR Hok Hp Hx) as [S1 _].
  enough (HW : wp (claim_rewards a p x) s (fun _ _ => True) (fun _ _ => False)) by (unfold wp in HW; by destruct (claim_rewards a p x s)).
  unfold claim_rewards, get_principal, get_index.
  apply wp_bind, wp_gets. destruct (Z.ltb_spec 0 (prin s FlexibleA)); cbn [negb]; [|by apply wp_ret].
  apply wp_bind, wp_gets, wp_bind, wp_lift; [|by intros e He%principal_down_err]. intros ap [_ ->]%principal_down_ok.
  apply wp_bind, wp_gets, wp_bind, walk_spec. rewrite Z.add_0_l.
  apply wp_bind, new_coins_spec. intros Hn. apply wp_bind, send_plain_spec; auto.
  - intros _. by apply wp_ret.
  - destruct HR as [_ _ R3]. change (bal (set_rewards _ _) FlexibleA) with (bal s FlexibleA). lia.
Qed.

(** * The records along a message *)
Definition kinv (s : state) : Prop := forall k r, v_rewards (st_vaults s) !! k = Some r -> rw_index r = k /\ k <= current_index s.
(** What an unlock does to the records. *)
Record paid_rel (a : addr) (v : Z) (s s' : state) : Prop := {
  pr_index : current_index s' = current_index s;
  pr_dom : forall k, v_rewards (st_vaults s) !! k = None -> v_rewards (st_vaults s') !! k = None;
  pr_rec : forall k r, v_rewards (st_vaults s) !! k = Some r -> exists r', v_rewards (st_vaults s') !! k = Some r' /\
    rw_index r' = rw_index r /\ rw_rewards r' <= rw_rewards r /\ rw_total r' <= rw_total r /\
    (rw_index r = current_index s -> rw_rewards r' = rw_rewards r) /\
    ((forall t p, v_positions (st_vaults s) !! (a, v, t) = Some p ->
        amt_at (v_positions (st_vaults s')) (a, v, t) < pos_amount p -> k <= pos_index p) -> r' = r);
  pr_pos : forall t p', v_positions (st_vaults s') !! (a, v, t) = Some p' ->
    exists p, v_positions (st_vaults s) !! (a, v, t) = Some p /\ pos_index p = pos_index p' /\ pos_amount p' <= pos_amount p;
  pr_sum : exists R, 0 <= R /\ left_over (v_rewards (st_vaults s')) = left_over (v_rewards (st_vaults s)) - R /\
    bal s' FlexibleA = bal s FlexibleA - R /\ distributed s' = distributed s + R
}.
Lemma paid_refl a v s : paid_rel a v s s.
Proof.
  constructor; [done|done| | |].
  - intros k r Hk. exists r. do 2 (split; [done|]). do 2 (split; [lia|]). done.
  - intros t p' H. exists p'. split; [done|]. split; [done|lia].
  - exists 0. lia.
Qed.
Definition posd (s : state) : Prop := forall k p, v_positions (st_vaults s) !! k = Some p -> 0 < pos_amount p.
Lemma paid_trans a v s s1 s2 : posd s -> posd s1 ->
  paid_rel a v s s1 -> paid_rel a v s1 s2 -> paid_rel a v s s2.
Proof.
  intros Hpos Hpos1 [A1 A2 A3 A4 (R1 & A5 & A6 & A7 & A8)] [B1 B2 B3 B4 (R2 & B5 & B6 & B7 & B8)]. constructor.
  - congruence.
  - auto.
  - intros k r Hk. destruct (A3 _ _ Hk) as (r1 & K1 & K2 & K3 & K4 & K5 & K6). destruct (B3 _ _ K1) as (r2 & L1 & L2 & L3 & L4 & L5 & L6).
    exists r2. split; [done|]. split; [congruence|]. split; [lia|]. split; [lia|]. split.
    + intros E. rewrite L5, K5; congruence.
    + intros HH. rewrite L6, K6; [done|..].
      * intros t p Hp Hlt. apply (HH t p Hp). unfold amt_at in *. pose proof (Hpos _ _ Hp). destruct (v_positions (st_vaults s2) !! (a, v, t)) as [p2|] eqn:E2; [|done].
        destruct (B4 _ _ E2) as (p1 & Q1 & Q2 & Q3). rewrite Q1 in Hlt. lia.
      * intros t p1 Hp1 Hlt. destruct (A4 _ _ Hp1) as (p & Hp & Q2 & Q3). rewrite <- Q2. apply (HH t p Hp). lia.
  - intros t p2 Hp2. destruct (B4 _ _ Hp2) as (p1 & Hp1 & Q1 & Q2). destruct (A4 _ _ Hp1) as (p & Hp & Q3 & Q4).
    exists p. split; [done|]. split; [congruence|lia].
  - exists (R1 + R2). lia.
Qed.
Lemma paid_one c g b p part s s' : codec_ok c -> c_dec c g = Some (AUser b) -> prin_ok (v_positions (st_vaults s)) ->
  v_positions (st_vaults s) !! (AUser b, FLEXIBLE, pos_time p) = Some p -> 0 < part <= pos_amount p ->
  v_positions (st_vaults s') = upos_map (AUser b) FLEXIBLE p part (v_positions (st_vaults s)) ->
  unl1 g (AUser b) FLEXIBLE p part s s' -> paid_rel (AUser b) FLEXIBLE s s'.
Proof.
  intros Hc Hd Hok Hp Hpart Hpos Hu. destruct (unl1_rewards c _ _ _ _ _ _ Hc Hd Hu) as (rew & y & [F1 F2 F3] & HS & HD & Ei & _).
  assert (HB : bal s' FlexibleA = bal s FlexibleA - rew).
  { rewrite F3. destruct (flex_account_not c (AUser b) (pos_time p)) as (N1 & N2 & N3 & N4 & _). unfold ind.
    rewrite (decide_True (P := FlexibleA = FlexibleA)) by done. rewrite !decide_False by done. lia. }
  destruct (Hok _ _ Hp) as (_ & P2 & _). pose proof (down_nonneg' part (pos_index p) ltac:(lia) P2) as Hap.
  set (ap := down part (pos_index p)) in *.
  remember (v_rewards (st_vaults s')) as m' eqn:Em.
  constructor; try rewrite <- Em.
  - done.
  - intros k Hk. destruct HS; [done|]. by rewrite settle_lookup, Hk.
  - intros k r Hk. destruct HS as [Hz|Hz].
    + exists r. do 2 (split; [done|]). do 2 (split; [lia|]). done.
    + rewrite settle_lookup, Hk. fold ap. cbn. eexists. split; [done|]. destruct (Z.ltb_spec (pos_index p) k) as [Hlt|Hge]; [|split; [done|]; do 2 (split; [lia|]); done].
      unfold rsettle. pose proof (rpay_nonneg (current_index s) ap r Hap) as Hr. destruct (live r) eqn:El; [|split; [done|]; do 2 (split; [lia|]); done]. cbn [rw_index rw_rewards rw_total].
      split; [done|]. split; [lia|]. split; [lia|]. split.
      * intros E. unfold rpay. rewrite (proj2 (Z.eqb_eq _ _) E). rewrite andb_false_r. lia.
      * intros HH. exfalso. enough (k <= pos_index p) by lia. apply (HH _ _ Hp). rewrite Hpos, amt_at_upos by done.
        unfold amt_at. rewrite Hp. unfold ind. rewrite decide_True by done. lia.
  - intros t p'. rewrite Hpos. unfold upos_map. destruct (Z.leb_spec (pos_amount p) part).
    + rewrite lookup_delete_Some. intros [_ H']. exists p'. split; [done|]. split; [done|lia].
    + rewrite lookup_insert_Some. intros [[Ek <-]|[_ H']]; [|exists p'; split; [done|]; split; [done|lia]]. injection Ek as <-. exists p. split; [done|]. cbn. split; [done|lia].
  - exists rew. split; [done|]. split; [|done]. destruct HS as [Hz|Hz]; [lia|]. by rewrite left_over_settle.
Qed.
Lemma prin_posd s : prin_ok (v_positions (st_vaults s)) -> posd s.
Proof. intros H k p Hk. by apply H in Hk as [? _]. Qed.
Lemma unls_paid c g b l rem s rem' d s' : codec_ok c -> c_dec c g = Some (AUser b) ->
  in_map (v_positions (st_vaults s)) (AUser b) FLEXIBLE l -> 0 <= rem ->
  unls g (AUser b) FLEXIBLE l rem s rem' d s' -> prin_ok (v_positions (st_vaults s)) -> paid_rel (AUser b) FLEXIBLE s s'.
Proof.
  intros Hc Hd Hm Hr H Hok.
  apply (unls_rel (fun s x d s' => prin_ok (v_positions (st_vaults s)) -> prin_ok (v_positions (st_vaults s')) /\ paid_rel (AUser b) FLEXIBLE s s') g (AUser b) FLEXIBLE)
    with (l := l) (d := d) in H as [_ H]; auto.
  - by apply H.
  - intros s0 H0. split; [done|apply paid_refl].
  - intros s0 x0 d0 s1 y0 e0 s2 _ _ A B H0. destruct (A H0) as [A1 A2]. destruct (B A1) as [B1 B2]. split; [done|].
    apply (paid_trans _ _ _ s1); by (apply prin_posd || idtac).
  - intros p part s0 s1 Hp Hpart E Hu H0. split; [rewrite E; by apply prin_ok_upos|]. by eapply paid_one.
Qed.
Lemma unls_staked_rewards g a l rem s rem' d s' : in_map (v_positions (st_vaults s)) a STAKED l -> 0 <= rem ->
  unls g a STAKED l rem s rem' d s' -> v_rewards (st_vaults s') = v_rewards (st_vaults s) /\ distributed s' = distributed s /\ current_index s' = current_index s.
Proof.
  intros Hm Hr H. apply (unls_rel (fun s x d s' => v_rewards (st_vaults s') = v_rewards (st_vaults s) /\ distributed s' = distributed s /\ current_index s' = current_index s) g a STAKED)
    with (l := l) (d := d) in H as [_ H]; auto.
  - intros s0 x0 d0 s1 y0 e0 s2 _ _ (-> & -> & ->) (-> & -> & ->). done.
  - intros p part s0 s1 _ _ _ Hu. by inversion Hu.
Qed.

(** Every message keeps the existing records, up to payouts. *)
Record kept_rel (s s' : state) : Prop := {
  kr_rec : forall k r, v_rewards (st_vaults s) !! k = Some r -> exists r', v_rewards (st_vaults s') !! k = Some r' /\
    rw_index r' = rw_index r /\ rw_rewards r' <= rw_rewards r /\ rw_total r' <= rw_total r;
  kr_new : forall k r, v_rewards (st_vaults s) !! k = None -> v_rewards (st_vaults s') !! k = Some r ->
    current_index s < k <= current_index s' /\ rw_index r = k;
  kr_paid : records_paid s s' = distributed s' - distributed s
}.
Lemma records_paid_fsum s s' : records_paid s s' = fsum (fun i r => rw_rewards r - remaining_at s' i) (v_rewards (st_vaults s)).
Proof. done. Qed.
Lemma paid_same s s' : (forall k r, v_rewards (st_vaults s) !! k = Some r -> v_rewards (st_vaults s') !! k = Some r) -> records_paid s s' = 0.
Proof.
  intros H. rewrite records_paid_fsum. rewrite (fsum_ext _ (fun _ _ => 0)).
  - unfold fsum. induction (v_rewards (st_vaults s)) as [|k r m Hk IH] using map_ind; [done|]. rewrite map_fold_insert_L; [|intros; lia|done].
    rewrite IH; [done|]. intros k' r' Hk'. apply H. rewrite lookup_insert_ne; [done|congruence].
  - intros k r Hk. unfold remaining_at, rewards. rewrite (H _ _ Hk). lia.
Qed.
Lemma paid_diff s s' : (forall k, v_rewards (st_vaults s) !! k = None <-> v_rewards (st_vaults s') !! k = None) ->
  records_paid s s' = left_over (v_rewards (st_vaults s)) - left_over (v_rewards (st_vaults s')).
Proof.
  rewrite records_paid_fsum. unfold left_over, remaining_at, rewards. generalize (v_rewards (st_vaults s')) as m'. intros m'.
  generalize (v_rewards (st_vaults s)) as m. intros m. revert m'.
  induction m as [|k r m Hk IH] using map_ind; intros m' H.
  - assert (m' = ∅) as ->. { apply map_eq. intros k. rewrite lookup_empty. apply H, lookup_empty. } done.
  - rewrite !fsum_insert_fresh by done. destruct (m' !! k) as [r'|] eqn:E'; [|apply H in E'; by rewrite lookup_insert in E'].
    rewrite (fsum_delete _ m' k r') by done.
    assert (IH' := IH (delete k m')). rewrite (fsum_ext _ (fun i r => rw_rewards r - match delete k m' !! i with Some r => rw_rewards r | None => 0 end) m).
    + rewrite IH'; [lia|]. intros j. destruct (decide (j = k)) as [->|Hne]; [by rewrite Hk, lookup_delete|].
      rewrite lookup_delete_ne by done. rewrite <- H. by rewrite lookup_insert_ne by done.
    + intros j q Hj. rewrite lookup_delete_ne by congruence. done.
Qed.
Lemma kept_same s s' : v_rewards (st_vaults s') = v_rewards (st_vaults s) -> distributed s' = distributed s -> kept_rel s s'.
Proof.
  intros Er Ed. constructor.
  - intros k r Hk. exists r. rewrite Er. split; [done|]. split; [done|]. lia.
  - intros k r Hk. rewrite Er. congruence.
  - rewrite paid_same by (by rewrite Er). lia.
Qed.
(** Records after an index update. *)
Lemma upd_records c i s s' : upd c i s s' -> (forall k, k <> i -> v_rewards (st_vaults s') !! k = v_rewards (st_vaults s) !! k) /\
  (forall r, v_rewards (st_vaults s') !! i = Some r -> rw_index r = i \/ v_rewards (st_vaults s) !! i = Some r) /\
  (v_ended (st_vaults s) = true -> v_rewards (st_vaults s') = v_rewards (st_vaults s)) /\
  v_stats (st_vaults s') = v_stats (st_vaults s) /\ v_ended (st_vaults s') = v_ended (st_vaults s).
Proof.
  intros H. destruct H.
  - auto.
  - subst s1. cbn. rewrite pay_vaults. split; [intros; by rewrite lookup_insert_ne|]. split; [|split; [congruence|done]].
    intros r. rewrite lookup_insert. intros [= <-]. by left.
  - subst s1. cbn. rewrite pay_vaults. split; [intros; by rewrite lookup_insert_ne|]. split; [|split; [congruence|done]].
    intros r. rewrite lookup_insert. intros [= <-]. by left.
  - auto.
  - auto.
  - destruct H as (E & R & F & T & D & -> & _). cbn. auto.
Qed.
Lemma upds_records c i s s' : upds c i s s' -> (forall k, k <> i -> v_rewards (st_vaults s') !! k = v_rewards (st_vaults s) !! k) /\
  (forall r, v_rewards (st_vaults s') !! i = Some r -> rw_index r = i \/ v_rewards (st_vaults s) !! i = Some r) /\
  (v_ended (st_vaults s) = true -> v_rewards (st_vaults s') = v_rewards (st_vaults s)) /\
  v_stats (st_vaults s') = v_stats (st_vaults s) /\ v_ended (st_vaults s') = v_ended (st_vaults s).
Proof.
  induction 1 as [s|s s1 s2 H1 H2 (A1 & A2 & A3 & A4 & A5)]; [auto 10|]. destruct (upd_records _ _ _ _ H1) as (B1 & B2 & B3 & B4 & B5).
  split; [intros k Hk; by rewrite A1, B1|]. split.
  - intros r Hr. apply A2 in Hr as [|Hr]; [by left|]. by apply B2.
  - split; [|split; congruence]. intros He. rewrite A3, B3; congruence.
Qed.
Lemma tried_records c i s s' : index_tried c i s s' ->
  (forall k, k <= current_index s -> v_rewards (st_vaults s') !! k = v_rewards (st_vaults s) !! k) /\
  (forall k r, current_index s < k -> v_rewards (st_vaults s') !! k = Some r -> v_rewards (st_vaults s) !! k = Some r \/
     k = i /\ rw_index r = k) /\
  (v_ended (st_vaults s) = true -> v_rewards (st_vaults s') = v_rewards (st_vaults s)) /\
  distributed s' = distributed s.
Proof.
  intros [[Hi ->]|(Hi & n & d & Hn & Hn0 & _ & HU)]; [auto 10|].
  assert (Hv : st_vaults (accrued s i n d) = st_vaults s) by (unfold accrued; by destruct (0 <? n)).
  destruct (upds_records _ _ _ _ HU) as (A1 & A2 & A3 & A4 & A5). rewrite Hv in *.
  split; [intros k Hk; apply A1; lia|]. split; [|split; [done|unfold distributed; by rewrite A4]].
  intros k r Hk Hr. destruct (decide (k = i)) as [->|Hne].
  - apply A2 in Hr as [Hr|Hr]; auto.
  - rewrite A1 in Hr by done. auto.
Qed.

Lemma kept_step c o s s' k : chain_ok c -> winv c s -> kinv s -> totals_ok FLEXIBLE k s -> exec c o s = Ok s' tt -> kept_rel s s' /\ kinv s'.
Proof.
  intros Hc Hw HK HT E. pose proof (to_pos _ _ _ HT) as Hok. pose proof (op_index _ _ _ _ Hc Hw E) as Hi.
  assert (Hmain : kept_rel s s').
  2:{ split; [done|]. intros j r Hj. destruct (v_rewards (st_vaults s) !! j) as [r0|] eqn:Ej.
      - destruct (kr_rec _ _ Hmain _ _ Ej) as (r' & Hr' & K1 & _). apply HK in Ej as [E1 E2]. split; [congruence|lia].
      - destruct (kr_new _ _ Hmain _ _ Ej Hj). lia. }
  destruct (lock_op o) eqn:Ho.
  - destruct o; try discriminate.
    + destruct (lock_inv' _ _ _ _ _ _ Hc E) as (b & x & D & -> & H1 & H2 & H3 & H4 & H5 & H6 & Es).
      set (h := position_account signer vault (x_now (st_world s))) in *. destruct (lock_others s (AUser b) h vault x) as (_ & _ & L3 & _).
      rewrite <- Es in L3. apply kept_same; [done|]. subst s'. unfold distributed, lock_result, with_stats, vprin_add, users_up, lock_state, add_flex. cbn.
      destruct (vault =? FLEXIBLE); cbn; repeat case_match; done.
    + destruct Hw as [Hw Hp].
      destruct (unlock_inv' _ _ _ _ _ _ Hp E) as (b & x & d & s1 & D & -> & _ & _ & _ & H4 & H5 & H6 & Hu & ->).
      assert (Hx : 0 <= x) by lia. assert (HD : distributed (unlock_result s1 (AUser b) vault d) = distributed s1).
      { unfold distributed, unlock_result, with_stats, vprin_add, users_down. cbn. repeat case_match; done. }
      pose proof (in_map_positions s (AUser b) vault Hp) as Hm. destruct H4 as [-> | ->].
      * destruct (unls_staked_rewards _ _ _ _ _ _ _ _ Hm Hx Hu) as (E1 & E2 & E3). apply kept_same; [done|congruence].
      * destruct (unls_paid c _ _ _ _ _ _ _ _ (ok_codec _ Hc) D Hm Hx Hu Hok) as [P1 P2 P3 P4 (R & P5 & P6 & P7 & P8)].
        assert (HDD : forall kk, v_rewards (st_vaults s) !! kk = None <-> v_rewards (st_vaults s1) !! kk = None).
        { intros kk. split; [apply P2|]. intros Hn. destruct (v_rewards (st_vaults s) !! kk) eqn:Ek; [|done]. apply P3 in Ek as (r' & Hr' & _). congruence. }
        constructor.
        -- intros kk r Hk. apply P3 in Hk as (r' & Q1 & Q2 & Q3 & Q4 & _). eauto 10.
        -- intros kk r Hk Hk'. change (v_rewards (st_vaults (unlock_result _ _ _ _))) with (v_rewards (st_vaults s1)) in Hk'. apply P2 in Hk. congruence.
        -- rewrite paid_diff by done. rewrite HD. change (v_rewards (st_vaults (unlock_result _ _ _ _))) with (v_rewards (st_vaults s1)). lia.
  - destruct (stakes_same _ _ _ _ Hc Hw Ho E) as (_ & _ & ES). assert (ED : distributed s' = distributed s) by (unfold distributed; by rewrite ES).
    destruct (deliver_op o) eqn:Hn; [destruct o; try discriminate|].
    + destruct Hw as [Hw Hp]. destruct (deliver_inv' _ _ _ _ _ Hc Hw E) as (v & pl & _ & HH).
      set (s0 := consume s (va_digest v)) in *.
      assert (Hgo : forall i s1, index_tried c i s0 s1 -> v_rewards (st_vaults s') = v_rewards (st_vaults s1) -> current_index s' = current_index s1 -> kept_rel s s').
      { intros i s1 Ht Er Ei. pose proof Ht as Ht0. apply tried_records in Ht as (T1 & T2 & _ & _). change (current_index s0) with (current_index s) in *.
        change (v_rewards (st_vaults s0)) with (v_rewards (st_vaults s)) in *.
        assert (Hold : forall kk r, v_rewards (st_vaults s) !! kk = Some r -> v_rewards (st_vaults s') !! kk = Some r).
        { intros kk r Hk. rewrite Er, T1; [done|]. by apply HK in Hk as [_ ?]. }
        constructor.
        - intros kk r Hk. exists r. split; [by apply Hold|]. split; [done|]. lia.
        - intros kk r Hk Hk'. rewrite Er in Hk'. destruct (Z.le_gt_cases kk (current_index s)) as [Hle|Hgt]; [rewrite T1 in Hk'; congruence|].
          destruct (T2 _ _ Hgt Hk') as [?|[-> Hr]]; [congruence|]. split; [|done]. split; [done|].
          rewrite Ei. destruct Ht0 as [[Hle ->]|(Hlt & n & d & _ & _ & _ & HU)]; [change (current_index s0) with (current_index s) in Hle; lia|].
          assert (Hv : st_vaults (accrued s0 i n d) = st_vaults s) by (unfold accrued; by destruct (0 <? n)).
          destruct (upd_frame' _ _ _ _ HU) as (_ & -> & _).
          { unfold good_collector. rewrite Hv. apply Hw. }
          replace (current_index (accrued s0 i n d)) with i; [lia|]. unfold accrued. by destruct (0 <? n).
        - rewrite paid_same by done. lia. }
      destruct HH as [|i s1 _ _ H|t s1 _ _ _ _ H _ _ _].
      * by apply kept_same.
      * apply applied_tried in H. by eapply Hgo.
      * eapply Hgo; [exact H|..]; unfold issued; by destruct (0 <? tk_amount t).
    + apply kept_same; [|done]. by eapply rewards_same.
Qed.
Lemma kinv_run c s0 ops : chain_ok c -> fresh c s0 -> kinv (run c s0 ops).
Proof.
  intros Hc Hf. induction ops as [|o ops IH] using rev_ind.
  - intros k r. cbn. rewrite (fresh_rewards _ _ Hf), lookup_empty. done.
  - rewrite run_snoc. destruct (step_cases c (run c s0 ops) o) as [E|E]; [by rewrite E|].
    destruct (kept_step _ _ _ _ _ Hc (winv_run _ _ ops Hc (winv_fresh _ _ Hf)) IH (totals_run c s0 ops FLEXIBLE Hc Hf) E). done.
Qed.
Lemma kinv_reachable c s : chain_ok c -> reachable c s -> kinv s.
Proof. intros Hc (s0 & ops & Hf & ->). by apply kinv_run. Qed.
Theorem records_kept c s s' o : chain_ok c -> reachable c s -> exec c o s = Ok s' tt ->
  (forall i r, rewards s !! i = Some r -> exists r', rewards s' !! i = Some r' /\
     rw_index r' = i /\ rw_rewards r' <= rw_rewards r /\ rw_total r' <= rw_total r) /\
  (forall i r, rewards s !! i = None -> rewards s' !! i = Some r -> current_index s < i <= current_index s' /\ rw_index r = i) /\
  records_paid s s' = distributed s' - distributed s.
Proof.
  intros Hc Hr E. pose proof (winv_reachable _ _ Hc Hr) as Hw. pose proof (kinv_reachable _ _ Hc Hr) as HK.
  destruct (totals_reachable c s FLEXIBLE Hc Hr) as [k HT].
  destruct (kept_step _ _ _ _ _ Hc Hw HK HT E) as [[K1 K2 K3] _]. split; [|done].
  intros i r Hi. destruct (K1 _ _ Hi) as (r' & A & B & C & D). apply HK in Hi as [Hi _]. exists r'. split; [done|]. split; [congruence|done].
Qed.

(** * No reward for an incomplete cycle *)
Theorem incomplete_cycle c s s' g b amount : chain_ok c -> reachable c s -> c_dec c g = Some (AUser b) ->
  exec c (OpUnlock g FLEXIBLE amount) s = Ok s' tt ->
  bal s' FlexibleA = bal s FlexibleA - records_paid s s' /\ dom (rewards s') = dom (rewards s) /\
  (forall i, i = current_index s \/
     (forall t p, positions s !! (AUser b, FLEXIBLE, t) = Some p -> amount_at s' (AUser b, FLEXIBLE, t) < pos_amount p -> i <= pos_index p) ->
     remaining_at s' i = remaining_at s i).
Proof.
  intros Hc Hr D0 E. pose proof (winv_reachable _ _ Hc Hr) as [Hw Hp]. pose proof (kinv_reachable _ _ Hc Hr) as HK.
  destruct (totals_reachable c s FLEXIBLE Hc Hr) as [k HT]. pose proof (to_pos _ _ _ HT) as Hok.
  destruct (unlock_inv' _ _ _ _ _ _ Hp E) as (b' & x & d & s1 & D & -> & _ & _ & _ & H4 & H5 & H6 & Hu & ->).
  assert (b' = b) as -> by congruence.
  assert (Hx : 0 <= x) by lia. pose proof (in_map_positions s (AUser b) FLEXIBLE Hp) as Hm.
  destruct (unls_paid c _ _ _ _ _ _ _ _ (ok_codec _ Hc) D Hm Hx Hu Hok) as [P1 P2 P3 P4 (R & P5 & P6 & P7 & P8)].
  assert (HD : forall kk, v_rewards (st_vaults s) !! kk = None <-> v_rewards (st_vaults s1) !! kk = None).
  { intros kk. split; [apply P2|]. intros Hn. destruct (v_rewards (st_vaults s) !! kk) eqn:Ek; [|done].
    apply P3 in Ek as (r' & Hr' & _). congruence. }
  split; [|split].
  - change (bal (unlock_result ?z _ _ _) FlexibleA) with (bal z FlexibleA). rewrite P7. f_equal.
    rewrite paid_diff by exact HD. change (v_rewards (st_vaults (unlock_result _ _ _ _))) with (v_rewards (st_vaults s1)). lia.
  - apply leibniz_equiv. intros kk. unfold rewards. change (v_rewards (st_vaults (unlock_result _ _ _ _))) with (v_rewards (st_vaults s1)).
    rewrite !elem_of_dom, <- !not_eq_None_Some. by rewrite HD.
  - intros i Hi. unfold remaining_at, rewards. change (v_rewards (st_vaults (unlock_result _ _ _ _))) with (v_rewards (st_vaults s1)).
    destruct (v_rewards (st_vaults s) !! i) as [r|] eqn:Ei; [|by rewrite P2].
    destruct (P3 _ _ Ei) as (r' & Q1 & Q2 & Q3 & Q4 & Q5 & Q6). rewrite Q1. destruct Hi as [->|Hi].
    + apply HK in Ei as [Ei _]. by apply Q5.
    + f_equal. by apply Q6.
Qed.
Theorem same_index_no_reward c s s' g b amount : chain_ok c -> reachable c s -> c_dec c g = Some (AUser b) ->
  (forall t p, positions s !! (AUser b, FLEXIBLE, t) = Some p -> pos_index p = current_index s) ->
  exec c (OpUnlock g FLEXIBLE amount) s = Ok s' tt ->
  bal s' FlexibleA = bal s FlexibleA /\ distributed s' = distributed s /\ forall i, remaining_at s' i = remaining_at s i.
Proof.
  intros Hc Hr D Hall E. pose proof (kinv_reachable _ _ Hc Hr) as HK.
  destruct (incomplete_cycle _ _ _ _ _ _ Hc Hr D E) as (H1 & H2 & H3). destruct (records_kept _ _ _ _ Hc Hr E) as (_ & _ & K3).
  assert (HA : forall i, remaining_at s' i = remaining_at s i).
  { intros i. destruct (Z.le_gt_cases i (current_index s)).
    - apply H3. right. intros t p Hp _. by rewrite (Hall _ _ Hp).
    - assert (E1 : rewards s !! i = None).
      { destruct (rewards s !! i) eqn:Ei; [|done]. apply HK in Ei. lia. }
      assert (E2 : rewards s' !! i = None) by (apply not_elem_of_dom; rewrite H2; by apply not_elem_of_dom).
      unfold remaining_at. by rewrite E1, E2. }
  assert (HZ : records_paid s s' = 0).
  { rewrite records_paid_fsum, (fsum_ext _ (fun _ _ => 0)).
    - unfold fsum. induction (v_rewards (st_vaults s)) as [|kk r m Hk IH] using map_ind; [done|]. rewrite map_fold_insert_L; [lia|intros; lia|done].
    - intros kk r Hk. rewrite HA. unfold remaining_at, rewards. rewrite Hk. lia. }
  rewrite HZ in *. split; [lia|]. split; [lia|done].
Qed.

(** * The pending-rewards query *)
Lemma walk_pending ci ap l : forall acc s, wp (walk_rewards ci ap l acc) s (fun _ t => pending_walk ci ap l acc = POk t) top2.
Proof.
  induction l as [|[k r] l IH]; intros acc s; cbn [walk_rewards pending_walk]; [by apply wp_ret|].
  destruct (negb (0 <? rw_total r) || negb (0 <? rw_rewards r)); [apply IH|].
  apply wp_bind. apply (wp_mono _ _ (fun _ u => (if negb (rw_index r =? ci) && negb (rw_rewards r <? 0) then user_reward r ap else POk 0) = POk u) _ top2).
  { destruct (_ && _); [|by apply wp_ret]. by apply wp_lift. }
  2:{ done. }
  intros s1 u Hu. rewrite Hu. cbn [pbind].
  apply wp_bind, wp_lift; [|done]. intros t1 _. apply wp_bind, wp_lift; [|done]. intros t2 _. apply wp_bind, wp_modify, wp_bind, wp_lift; [|done].
  intros acc' Hacc. rewrite Hacc. cbn [pbind]. apply IH.
Qed.
Lemma pending_fits ci ap l : forall acc t, int_fits acc = true -> pending_walk ci ap l acc = POk t -> int_fits t = true.
Proof.
  induction l as [|[k r] l IH]; intros acc t Ha; cbn [pending_walk]; [by intros [= <-]|].
  destruct (_ || _); [by apply IH|]. unfold pbind at 1. destruct (if _ && _ then _ else _) as [u| |]; try discriminate.
  unfold int_add, int_chk, pbind. destruct (int_fits (acc + u)) eqn:Ef; [|discriminate]. by apply IH.
Qed.
Lemma wp_any {A} (m : M A) s (Q : state -> A -> Prop) : (forall s' a, Q s' a) -> wp m s Q top2.
Proof. intros. unfold wp. by destruct (m s). Qed.
Lemma unlock_pending c g a p s x s' : c_dec c g = Some a -> positions_of s a FLEXIBLE = [p] -> x = pos_amount p -> 0 < prin s FlexibleA -> 0 < x ->
  unlock c g FLEXIBLE (Some x) s = Ok s' tt ->
  let r := rsum (current_index s) (down x (pos_index p)) (pos_index p) (v_rewards (st_vaults s)) in
  q_pending_rewards_by_provider c g s = Ok s (r, [(x, r)]).
Proof.
  intros Hd Hpos -> Hpr Hx. set (r0 := rsum _ _ _ _). set (P := q_pending_rewards_by_provider c g s = Ok s (r0, [(pos_amount p, r0)])).
  apply (wp_ok _ _ (fun _ _ => P) top2).
  unfold unlock. apply wp_bind, wp_gets. destruct (_ && _); [done|]. apply wp_bind, wp_gets. destruct (_ || _); [done|].
  unfold unlock_internal. rewrite Hd. destruct (negb _); [done|]. destruct (negb _); [done|].
  apply wp_bind, wp_gets. rewrite Hpos. apply wp_bind, wp_lift; [|done]. intros tot _. destruct (_ <? _); [done|]. destruct (_ && _); [done|].
  apply wp_bind. cbn [unlock_loop]. rewrite (proj2 (Z.eqb_neq (pos_amount p) 0)) by lia. rewrite Z.ltb_irrefl, Z.eqb_refl.
  apply wp_bind, wp_lift; [|done]. intros pp Hpp.
  apply wp_bind, wp_bind, wp_gets, wp_bind, wp_lift; [|done]. intros tot' _. apply wp_bind, wp_modify, wp_bind.
  unfold claim_rewards, get_principal, get_index. apply wp_bind, wp_gets.
  change (prin (s <| st_vaults; v_total_flex := tot' |>) FlexibleA) with (prin s FlexibleA).
  rewrite (proj2 (Z.ltb_lt 0 _)) by done. cbn [negb]. apply wp_bind, wp_gets, wp_bind, wp_lift; [|done]. intros ap Hap.
  rewrite Hpp in Hap. injection Hap as <-.
  apply wp_bind, wp_gets, wp_bind. eapply wp_mono; [apply wp_conj; [apply walk_pending|apply walk_spec with (Q := fun _ t => t = r0) (E := top2)]| |done].
  { pose proof (principal_down_ok _ _ _ Hpp) as [_ ->]. done. }
  intros s1 r [Hw ->]. enough P by (repeat (apply wp_any; intros); done).
  subst P. unfold q_pending_rewards_by_provider. rewrite Hd. unfold bind, gets, lift. rewrite Hpos. cbn [pending_loop].
  rewrite Hpp. cbn [pbind].
  change (rewards_above (s <| st_vaults; v_total_flex := tot' |>) (pos_index p)) with (rewards_above s (pos_index p)) in Hw.
  change (current_index (s <| st_vaults; v_total_flex := tot' |>)) with (current_index s) in Hw.
  rewrite Hw. cbn [pbind]. unfold int_add, int_chk. cbn [pending_loop]. rewrite Z.add_0_l. rewrite (pending_fits _ _ _ 0 r0 eq_refl Hw). done.
Qed.
Lemma single_position s a v t p : (forall t' p', positions s !! (a, v, t') = Some p' <-> t' = t /\ p' = p) -> positions_of s a v = [p].
Proof.
  intros H. unfold positions_of. rewrite entries_of_eq. set (l := entries_of _ a v).
  assert (HE : forall x, x ∈ l <-> x = (t, p)).
  { intros [t' p']. subst l. rewrite elem_entries_of. fold (positions s). rewrite H. split; [by intros [-> ->]|by intros [= -> ->]]. }
  assert (HN : NoDup l) by (eapply NoDup_fmap_1, entries_of_nodup). clearbody l.
  destruct l as [|x l]; [exfalso; by apply (not_elem_of_nil (t, p)), HE|].
  assert (x = (t, p)) as -> by (apply HE; left).
  destruct l as [|y l]; [done|]. exfalso. assert (y = (t, p)) as -> by (apply HE; right; left). apply NoDup_cons in HN as [HN _]. apply HN. left.
Qed.
Theorem pending_exact c s s' g b t p : chain_ok c -> reachable c s -> c_dec c g = Some (AUser b) ->
  (forall t' p', positions s !! (AUser b, FLEXIBLE, t') = Some p' <-> t' = t /\ p' = p) -> 0 < prin s FlexibleA ->
  exec c (OpUnlock g FLEXIBLE (Some (pos_amount p))) s = Ok s' tt ->
  exists r, q_pending_rewards_by_provider c g s = Ok s (r, [(pos_amount p, r)]) /\
    bal s' FlexibleA = bal s FlexibleA - r /\ distributed s' = distributed s + r.
Proof.
  intros Hc Hr Hd Hsingle Hpr E. pose proof (winv_reachable _ _ Hc Hr) as [Hw Hp].
  pose proof (single_position _ _ _ _ _ Hsingle) as Hpos.
  assert (Hin : positions s !! (AUser b, FLEXIBLE, t) = Some p) by (by apply Hsingle). destruct (Hp _ _ Hin) as (Ha & Ht & _). cbn in Ht.
  pose proof E as E0. cbn in E0. apply signed_ok in E0 as [E0 _].
  eexists. split; [by eapply unlock_pending|].
  destruct (unlock_inv' _ _ _ _ _ _ Hp E) as (b' & x & d & s1 & D & [= <-] & _ & _ & _ & H4 & H5 & H6 & Hu & ->).
  assert (b' = b) as -> by congruence. rewrite Hpos in Hu.
  inversion Hu as [| |p0 l rem s0 s2 s3 rem' d0 Hne H1 H2]; [lia|]. subst.
  assert (Epart : part_of p (pos_amount p) = pos_amount p) by (unfold part_of; by rewrite Z.ltb_irrefl). rewrite Epart in H1.
  inversion H2; subst. destruct (unl1_rewards c _ _ _ _ _ _ (ok_codec _ Hc) Hd H1) as (rew & y & [F1 F2 F3] & HS & HD & Ei & _).
  assert (HB : bal s1 FlexibleA = bal s FlexibleA - rew).
  { rewrite F3. destruct (flex_account_not c (AUser b) (pos_time p)) as (N1 & N2 & N3 & N4 & _). unfold ind.
    rewrite (decide_True (P := FlexibleA = FlexibleA)) by done. rewrite !decide_False by done. lia. }
  assert (Erew : rew = rsum (current_index s) (down (pos_amount p) (pos_index p)) (pos_index p) (v_rewards (st_vaults s))) by (inversion HS; [lia|done]).
  rewrite <- Erew. split; [exact HB|]. unfold distributed, unlock_result, with_stats, vprin_add, users_down. cbn.
  transitivity (vs_flex_distributed (v_stats (st_vaults s1))); [repeat case_match; done|exact HD].
Qed.
