(** What accounts are worth, messages that undo each other, and the stored state. *)
From Verif Require Import AdminP RewardP ExtP.
From Verif Require Export ExactP.

(** * Worth *)
Lemma scaled_bounds x i : 0 <= x -> 0 < i ->
  x * unit_index <= ceil_div (x * unit_index) i * i < x * unit_index + i.
Proof.
  intros Hx Hi. unfold ceil_div. pose proof (Z.div_mod (- (x * unit_index)) i). pose proof (Z.mod_pos_bound (- (x * unit_index)) i Hi). nia.
Qed.
Lemma worth_mono s s' a : bal s a <= bal s' a -> prin s a <= prin s' a -> 0 < current_index s <= current_index s' ->
  0 <= bal s a -> worth s a <= worth s' a.
Proof.
  intros Hb Hp Hi H0. unfold worth, floor_div. destruct (Z.le_gt_cases 0 (prin s a)) as [Hn|Hn].
  - assert (prin s a * current_index s / unit_index <= prin s' a * current_index s' / unit_index); [|lia].
    apply Z.div_le_mono; [done|]. nia.
  - assert (prin s a * current_index s / unit_index <= 0); [|lia].
    assert (prin s a * current_index s <= 0) by nia. change unit_index with 1000000000000. lia.
Qed.
Theorem worth_kept c s l b : chain_ok c -> reachable c s ->
  Forall (fun o => signer_of c o <> Some (AUser b)) l ->
  worth s (AUser b) <= worth (run c s l) (AUser b).
Proof.
  intros Hc Hr Hl. destruct (funds_safe_history c s l b Hc Hr Hl) as [H1 H2].
  pose proof (index_monotone c s l Hc Hr). destruct (wf_index _ _ (wi_wfs _ _ (winv_reachable _ _ Hc Hr))).
  apply worth_mono; [done|done|lia|]. by apply (conserved c s Hc Hr).
Qed.
Theorem worth_claim c s s' signer b : chain_ok c -> reachable c s -> c_dec c signer = Some (AUser b) ->
  succeeds_with c s (OpClaimYield signer) s' ->
  (forall a, a <> YieldA -> worth s' a = worth s a) /\ worth s (AUser b) - 1 <= bal s' (AUser b) <= worth s (AUser b).
Proof.
  intros Hc Hr Hd E. destruct (claim_pays c s s' signer _ Hc Hr Hd E) as (HB & _ & _ & HD & _).
  assert (Hp : forall a, prin s' a = prin s a) by (intros; unfold prin; by rewrite HD).
  assert (Hi : current_index s' = current_index s) by (unfold current_index; by rewrite HD).
  assert (Hself : bal s' (AUser b) = bal s (AUser b) + claimable s (AUser b)).
  { rewrite HB. unfold on. rewrite decide_False by done. rewrite decide_True by done. lia. }
  split.
  - intros a Ha. destruct (decide (a = AUser b)) as [->|Hne].
    + unfold worth. rewrite Hself, Hp, Hi. unfold claimable. cbn zeta. destruct (Z.leb_spec (floor_div (prin s (AUser b) * current_index s) unit_index - bal s (AUser b)) 1); lia.
    + unfold worth. rewrite HB, Hp, Hi. unfold on. rewrite !decide_False by done. f_equal. lia.
  - rewrite Hself. unfold worth, claimable. cbn zeta. destruct (Z.leb_spec (floor_div (prin s (AUser b) * current_index s) unit_index - bal s (AUser b)) 1); lia.
Qed.
Theorem worth_transfer c s s' f t x : chain_ok c -> reachable c s -> succeeds_with c s (OpSend f t x) s' -> f <> t ->
  let unit := ceil_div (current_index s) unit_index in
  worth s f - x - unit <= worth s' f <= worth s f - x /\
  worth s t + x <= worth s' t <= worth s t + x + unit /\
  forall a, a <> f -> a <> t -> worth s' a = worth s a.
Proof.
  intros Hc Hr E Hne unit. destruct (transfer_message c s s' f t x Hc Hr E) as [T Hx].
  destruct (wf_index _ _ (wi_wfs _ _ (winv_reachable _ _ Hc Hr))) as [Hi _].
  pose proof (scaled_bounds x (current_index s) ltac:(lia) Hi) as HU.
  pose proof (tr_balance _ _ _ _ _ T) as HB. pose proof (tr_principal _ _ _ _ _ T) as HP. pose proof (tr_index _ _ _ _ _ T) as HI.
  set (q := ceil_div (x * unit_index) (current_index s)) in *.
  split; [|split].
  - unfold worth. rewrite HB, HP, HI. unfold on. rewrite !(decide_True (P := f = f)), !(decide_False (P := f = t)) by done.
    rewrite !Z.add_0_r, Z.mul_sub_distr_r. unfold unit, ceil_div, floor_div.
    clear -Hx Hi HU. revert HU. generalize (q * current_index s), (prin s f * current_index s). intros.
    change unit_index with 1000000000000 in *. lia.
  - unfold worth. rewrite HB, HP, HI. unfold on. rewrite !(decide_True (P := t = t)), !(decide_False (P := t = f)) by congruence.
    rewrite !Z.sub_0_r, Z.mul_add_distr_r. unfold unit, ceil_div, floor_div.
    clear -Hx Hi HU. revert HU. generalize (q * current_index s), (prin s t * current_index s). intros.
    change unit_index with 1000000000000 in *. lia.
  - intros a Hf Ht. unfold worth. rewrite HB, HP, HI. unfold on. rewrite !decide_False by done. f_equal; [lia|]. f_equal. lia.
Qed.
Theorem worth_issue c s s' x bz t : chain_ok c -> reachable c s -> carried_token c bz = Some t -> tk_index t <= current_index s ->
  exec c (OpDeliver x bz) s = Ok s' tt -> let r := c_acct c (sl_bytes (tk_recipient t)) in
  worth s r + tk_amount t - ceil_div (current_index s) unit_index <= worth s' r <= worth s r + tk_amount t \/ r = YieldA.
Proof.
  intros Hc Hr Ht Hle E r. destruct (issue_books c s s' x bz t Hc Hr Ht E) as [_ H]. destruct (H Hle) as (HB & HP & _ & HI & _). fold r in HB, HP.
  destruct (decide (r = YieldA)); [by right|left].
  destruct (wf_index _ _ (wi_wfs _ _ (winv_reachable _ _ Hc Hr))) as [Hi _].
  assert (Ha : 0 <= tk_amount t). { pose proof (supply_changes c s _ s' Hc Hr E) as (n0 & _ & _ & _ & Hn). cbn in Hn. by rewrite Ht in Hn. }
  unfold worth. rewrite HB, HP, HI. unfold on. rewrite !decide_True by done. rewrite Z.mul_add_distr_r.
  assert (HF : tk_amount t * unit_index - current_index s < floor_div (tk_amount t * unit_index) (current_index s) * current_index s <= tk_amount t * unit_index).
  { unfold floor_div. pose proof (Z.div_mod (tk_amount t * unit_index) (current_index s)). pose proof (Z.mod_pos_bound (tk_amount t * unit_index) (current_index s) Hi). lia. }
  clear -Ha Hi HF. revert HF. set (q := floor_div (tk_amount t * unit_index) (current_index s)). generalize (q * current_index s), (prin s r * current_index s). unfold floor_div, ceil_div. intros.
  change unit_index with 1000000000000 in *. lia.
Qed.

(** * Messages that undo each other *)
Lemma exec_reachable c s o s' : reachable c s -> exec c o s = Ok s' tt -> reachable c s'.
Proof. intros Hr E. assert (s' = step c s o) as -> by (unfold step; by rewrite E). by apply step_reachable. Qed.
Lemma enc_inj c a b : codec_ok c -> c_enc c a = c_enc c b -> a = b.
Proof. intros Hk E. pose proof (codec_roundtrip c Hk a) as R. rewrite E, (codec_roundtrip c Hk) in R. congruence. Qed.

Lemma transferred_back s m m1 m2 f t x : transferred s m f t x -> st_bank m1 = st_bank m -> st_dollar m1 = st_dollar m ->
  transferred m1 m2 t f x -> restored s m2.
Proof.
  intros T0 Eb Ed T1.
  assert (Hb : forall a, bal m1 a = bal m a) by (intros; unfold bal; by rewrite Eb).
  assert (Hp : forall a, prin m1 a = prin m a) by (intros; unfold prin; by rewrite Ed).
  assert (Hi : current_index m1 = current_index m) by (unfold current_index; by rewrite Ed).
  repeat split.
  - intros a. rewrite (tr_balance _ _ _ _ _ T1), Hb, (tr_balance _ _ _ _ _ T0). lia.
  - intros a. rewrite (tr_principal _ _ _ _ _ T1), Hp, (tr_principal _ _ _ _ _ T0), Hi, (tr_index _ _ _ _ _ T0). lia.
  - rewrite (tr_supply _ _ _ _ _ T1). rewrite <- (tr_supply _ _ _ _ _ T0). unfold supply. by rewrite Eb.
  - rewrite (tr_total _ _ _ _ _ T1). rewrite <- (tr_total _ _ _ _ _ T0). unfold total_principal. by rewrite Ed.
  - rewrite (tr_index _ _ _ _ _ T1), Hi. apply T0.
Qed.
Theorem send_back c s s1 s2 f t x : chain_ok c -> reachable c s ->
  exec c (OpSend f t x) s = Ok s1 tt -> exec c (OpSend t f x) s1 = Ok s2 tt ->
  restored s s2.
Proof.
  intros Hc Hr E1 E2. pose proof (exec_reachable _ _ _ _ Hr E1) as Hr1.
  destruct (transfer_message _ _ _ _ _ _ Hc Hr E1) as [T1 _]. destruct (transfer_message _ _ _ _ _ _ Hc Hr1 E2) as [T2 _].
  by apply (transferred_back s s1 s1 s2 f t x).
Qed.
Theorem ibc_undone c s s1 s2 o from ch rc x n : chain_ok c -> reachable c s ->
  exec c (OpIbcSend XOk from ch rc x) s = Ok s1 tt -> n = length (x_inflight (st_world s)) ->
  o = OpIbcTimeout n \/ o = OpIbcAck n AckError -> exec c o s1 = Ok s2 tt ->
  restored s s2 /\
  d_retry (st_dollar s2) = d_retry (st_dollar s) /\ st_world s2 = st_world s /\ st_vaults s2 = st_vaults s /\ st_portal s2 = st_portal s.
Proof.
  intros Hc Hr E1 -> Ho E2. pose proof (exec_reachable _ _ _ _ Hr E1) as Hr1.
  destruct (ibc_send_exact _ _ _ _ _ _ _ _ Hc Hr E1) as (Hext & _ & _ & m & T1 & W1). unfold only_world in W1.
  destruct (ibc_refund_exact _ _ _ _ _ Hc Hr1 Ho E2) as (p & Hp & HH). cbn zeta in HH.
  set (pk := mk_packet transfer_port ch (Some (mk_ft (c_denom c) (Some x) (c_enc c from) rc))) in *.
  assert (HW : st_world s1 = st_world s <| x_inflight := x_inflight (st_world s) ++ [pk] |>) by (by rewrite W1).
  assert (HL : x_inflight (st_world s1) = x_inflight (st_world s) ++ [pk]) by (by rewrite HW).
  rewrite HL in Hp. rewrite list_lookup_middle in Hp by done. injection Hp as <-.
  assert (HD : st_world s1 <| x_inflight := delete (length (x_inflight (st_world s))) (x_inflight (st_world s1)) |> = st_world s).
  { rewrite HL, HW, delete_middle, app_nil_r. by destruct (st_world s). }
  rewrite HD in HH. destruct HH as [[Hf _]|(a & z & rc' & ch' & Heq & _ & m' & T2 & ->)].
  { unfold is_usdn in Hf. cbn in Hf. rewrite bool_decide_true in Hf by done. discriminate. }
  unfold pk in Heq. injection Heq as <- <- Ha _. apply (enc_inj c) in Ha; [|apply Hc]. subst a.
  rewrite decide_False by (by apply external_not_escrow).
  assert (R : restored s m').
  { apply (transferred_back s m s1 m' from (AEscrow transfer_port ch) x); auto; by rewrite W1. }
  assert (Hd : d_retry (st_dollar s1) = d_retry (st_dollar s)). { rewrite W1. cbn. apply T1. }
  assert (Hv : st_vaults s1 = st_vaults s). { rewrite W1. cbn. apply T1. }
  assert (Hq : st_portal s1 = st_portal s). { rewrite W1. cbn. apply T1. }
  split; [exact R|]. split; [exact Hd|]. split; [done|]. split; cbn.
  - rewrite (tr_vaults _ _ _ _ _ T2). exact Hv.
  - rewrite (tr_portal _ _ _ _ _ T2). exact Hq.
Qed.
Theorem warp_undone c s s1 s2 from tok domain rc x : chain_ok c -> reachable c s ->
  exec c (OpWarpSend XOk from tok domain rc x) s = Ok s1 tt -> exec c (OpWarpRecv tok from x) s1 = Ok s2 tt ->
  restored s s2 /\ x_tokens (st_world s2) = x_tokens (st_world s) /\ st_vaults s2 = st_vaults s /\ st_portal s2 = st_portal s.
Proof.
  intros Hc Hr E1 E2. pose proof (exec_reachable _ _ _ _ Hr E1) as Hr1.
  destruct (warp_send_exact _ _ _ _ _ _ _ _ _ Hc Hr E1) as (_ & _ & col & m & Hcol & T1 & W1). unfold only_world in W1.
  destruct (warp_recv_exact _ _ _ _ _ _ Hc Hr1 E2) as (_ & col' & m' & Hcol' & _ & _ & T2 & W2). unfold only_world in W2.
  split; [|split; [|split]].
  - assert (R : restored s m'); [|by rewrite W2].
    apply (transferred_back s m s1 m' from WarpA x); auto; by rewrite W1.
  - rewrite W2. cbn. rewrite W1 in Hcol' |- *. cbn in Hcol' |- *. rewrite lookup_insert in Hcol'. injection Hcol' as <-.
    rewrite insert_insert. rewrite Z.add_simpl_r. by apply insert_id.
  - rewrite W2. cbn. rewrite (tr_vaults _ _ _ _ _ T2), W1. cbn. apply T1.
  - rewrite W2. cbn. rewrite (tr_portal _ _ _ _ _ T2), W1. cbn. apply T1.
Qed.
Theorem issue_undone c s s1 s2 x bz t ps g chain tok rc : chain_ok c -> reachable c s -> carried_token c bz = Some t ->
  tk_index t <= current_index s -> c_dec c g = Some (c_acct c (sl_bytes (tk_recipient t))) ->
  exec c (OpDeliver x bz) s = Ok s1 tt -> exec c (OpTransfer ps g chain tok rc (Some (tk_amount t))) s1 = Ok s2 tt ->
  (forall a, bal s2 a = bal s a) /\ supply s2 = supply s /\ total_principal s2 = total_principal s /\ current_index s2 = current_index s /\
  (forall a, c_dec c g <> Some a -> prin s2 a = prin s a) /\
  (forall a, c_dec c g = Some a -> prin s a - 1 <= prin s2 a <= prin s a).
Proof.
  intros Hc Hr Ht Hle Hg E1 E2. pose proof (exec_reachable _ _ _ _ Hr E1) as Hr1.
  destruct (issue_books c s s1 x bz t Hc Hr Ht E1) as [HT H]. destruct (H Hle) as (HB & HP & HS & HI & _). clear H. cbn zeta in HT.
  destruct (redeem_books c s1 s2 ps g chain tok rc _ Hc Hr1 E2) as (b & z & Hd & Hz & Hz0 & HB2 & HP2 & HT2 & HS2 & HI2 & _).
  injection Hz as <-. rewrite Hd in Hg. injection Hg as Hg. rewrite <- Hg in *.
  destruct (wf_index _ _ (wi_wfs _ _ (winv_reachable _ _ Hc Hr))) as [Hi _].
  rewrite decide_False in HT by done. rewrite HI in *.
  split; [|split; [|split; [|split; [|split]]]].
  - intros a. rewrite HB2, HB. lia.
  - lia.
  - lia.
  - congruence.
  - intros a Ha. rewrite HP2, HP, decide_False by done. unfold on. rewrite !decide_False by congruence. lia.
  - intros a Ha. rewrite Hd in Ha. injection Ha as <-. rewrite HP2, HP, decide_False by done. unfold on. rewrite !decide_True by done.
    clear -Hz0 Hi. unfold ceil_div, floor_div. generalize (tk_amount t * unit_index). intros.
    pose proof (Z.div_mod z (current_index s)). pose proof (Z.mod_pos_bound z (current_index s)).
    pose proof (Z.div_mod (- z) (current_index s)). pose proof (Z.mod_pos_bound (- z) (current_index s)). nia.
Qed.
Theorem lock_undone c s s1 s2 g v x : chain_ok c -> reachable c s ->
  exec c (OpLock g v (Some x)) s = Ok s1 tt -> exec c (OpUnlock g v (Some x)) s1 = Ok s2 tt ->
  exists b, c_dec c g = Some (AUser b) /\
  bal s (AUser b) <= bal s2 (AUser b) /\
  (v = STAKED -> forall a, bal s2 a = bal s a) /\
  (v = STAKED -> stake s (AUser b) STAKED = 0 -> restored s s2 /\ positions s2 = positions s /\
     vault_total s2 STAKED = vault_total s STAKED /\ vault_users s2 STAKED = vault_users s STAKED).
Proof.
  intros Hc Hr E1 E2. pose proof (exec_reachable _ _ _ _ Hr E1) as Hr1. pose proof (exec_reachable _ _ _ _ Hr1 E2) as Hr2.
  destruct (lock_effect _ _ _ _ _ _ Hc Hr E1) as (b & x' & Hd & Hx & Hv & _ & Hx' & L). injection Hx as <-. cbn zeta in L.
  destruct L as (Hfree & Hpos & HB & HP & HS & HI & _ & _ & HW).
  destruct (unlock_effect _ _ _ _ _ _ Hc (winv_reachable _ _ Hc Hr1) E2) as (b' & x' & Hd' & Hx & _ & _ & U). injection Hx as <-.
  rewrite Hd in Hd'. injection Hd' as <-. cbn zeta in U. destruct U as (_ & _ & Hst & _ & Hoth & US & UF & _ & HS2 & HI2 & _).
  assert (Hbal : v = STAKED -> forall a, bal s2 a = bal s a).
  { intros ->. intros a. rewrite US by done. rewrite HB. change (vault_account c STAKED (AUser b) (x_now (st_world s))) with StakedA. lia. }
  exists b. split; [done|]. split; [|split].
  - destruct Hv as [->| ->]; [rewrite Hbal by done; lia|]. destruct (UF eq_refl) as (R & Y & ? & ? & -> & _). rewrite HB.
    unfold on. rewrite (decide_True (P := AUser b = AUser b)) by done. rewrite decide_False by done. lia.
  - exact Hbal.
  - intros ->. clear UF Hv. intros Hz. specialize (Hbal eq_refl).
    assert (Hnone : forall s' t, reachable c s' -> stake s' (AUser b) STAKED = 0 -> positions s' !! (AUser b, STAKED, t) = None).
    { intros s' t Hr' Hs'. destruct (positions s' !! (AUser b, STAKED, t)) as [p|] eqn:Ep; [|done]. exfalso.
      pose proof (wi_pos _ _ (winv_reachable _ _ Hc Hr')) as HW'. unfold stake in Hs'. rewrite position_sum_fsum in Hs'.
      assert (HF := fsum_elem_le (fun k p => if bool_decide (k.1 = (AUser b, STAKED)) then pos_amount p else 0) (positions s') (AUser b, STAKED, t) p).
      cbn beta in HF. rewrite bool_decide_true in HF by done. pose proof (HW' _ _ Ep) as [Hpp _].
      assert (pos_amount p <= 0); [|lia]. rewrite <- Hs'. apply HF; [|done]. intros k q Hq. apply HW' in Hq as [? _]. case_bool_decide; lia. }
    assert (Hst1 : stake s1 (AUser b) STAKED = x).
    { unfold stake in *. rewrite position_sum_fsum in *. fold (positions s1). fold (positions s) in Hz. rewrite Hpos. rewrite fsum_insert_fresh by done.
      cbn [fst]. rewrite bool_decide_true by done. cbn. lia. }
    assert (Hst2 : stake s2 (AUser b) STAKED = 0) by lia.
    assert (HPOS : positions s2 = positions s).
    { apply map_eq. intros [[a v] t]. destruct (decide ((a, v) = (AUser b, STAKED))) as [[= -> ->]|Hne].
      - rewrite !Hnone; auto.
      - rewrite Hoth by done. rewrite Hpos. apply lookup_insert_ne. congruence. }
    destruct (lock_books c s s1 g STAKED x b Hc Hr Hd E1) as (LT & _ & LP & _).
    destruct (staked_payout c s1 s2 g x b Hc Hr1 Hd E2) as (_ & SP & ST & SV & _). cbn zeta in SP, SV.
    assert (Hpart : forall f : Z -> Z -> Z, f x (current_index s) = position_sum (fun k => bool_decide (k.1 = (AUser b, STAKED)))
      (fun p => f (pos_amount p - amount_at s2 (AUser b, STAKED, pos_time p)) (pos_index p)) s1).
    { intros f. rewrite position_sum_fsum. fold (positions s1). rewrite Hpos. rewrite fsum_insert_fresh by done. cbn [fst].
      rewrite bool_decide_true by done. cbn [pos_amount pos_index pos_time].
      unfold amount_at at 1. rewrite HPOS, Hfree. rewrite Z.sub_0_r.
      rewrite (fsum_ext _ (fun _ _ => 0)).
      - assert (forall m : gmap (addr * Z * Z) position, fsum (fun _ _ => 0) m = 0) as ->; [|lia].
        intros m. induction m as [|k q m Hk IH] using map_ind; [apply fsum_empty|]. by rewrite fsum_insert_fresh, IH.
      - intros [[a v] t] p Hp. cbn. case_bool_decide as D; [|done]. injection D as -> ->. rewrite Hnone in Hp; done. }
    split; [|split; [done|split]].
    + split; [done|]. split; [|split; [congruence|split; [congruence|congruence]]].
      intros a. rewrite SP, HP. rewrite <- HI. rewrite <- (Hpart (fun z i => ceil_div (z * unit_index) (current_index s1))).
      change (vault_account c STAKED (AUser b) (x_now (st_world s))) with StakedA. lia.
    + rewrite SV, (LT STAKED) by (by left). rewrite Z.eqb_refl. rewrite <- (Hpart (fun z i => floor_div (z * unit_index) i)). lia.
    + rewrite !(users_counted c) by (done || by left). unfold stakers. by rewrite HPOS.
Qed.

(** * The stored state *)
Theorem stored_state c s : chain_ok c -> reachable c s -> well_formed c s.
Proof.
  intros Hc Hr. destruct (winv_reachable _ _ Hc Hr) as [[W1 W2 W3 W4] W5]. pose proof (einv_reachable _ _ Hc Hr) as (_ & _ & EI1 & EI2).
  constructor; auto.
  - destruct Hr as (s0 & l & Hf & ->). destruct (nonces_run c s0 l Hc Hf) as (k & _ & _ & ->). by apply Z.mod_pos_bound.
  - intros a v t p Hp. destruct (W5 _ _ Hp) as (P1 & P2 & P3 & P4 & P5 & P6). cbn in *.
    destruct (totals_reachable c s v Hc Hr) as [k HT]. destruct (to_pos _ _ _ HT _ _ Hp) as (_ & _ & P7). unfold rounded in P7.
    rewrite down_floor in P7 by lia. repeat split; auto; lia.
  - intros i r Hi. by apply (kinv_reachable c s Hc Hr).
  - intros p id. apply (EI1 (p, id)).
  - intros p Hp. rewrite Forall_forall in W4. by apply W4.
Qed.
Theorem pause_range c s l : chain_ok c -> reachable c s -> 0 <= v_paused (st_vaults s) <= 3 -> 0 <= v_paused (st_vaults (run c s l)) <= 3.
Proof.
  intros Hc. revert s. induction l as [|o l IH]; intros s Hr H; [done|]. rewrite run_cons. apply IH; [by apply step_reachable|].
  destruct (decide (v_paused (st_vaults (step c s o)) = v_paused (st_vaults s))) as [->|Hne]; [done|].
  destruct (authority_only c s o Hc Hr) as (_ & HA & _). destruct (HA Hne) as [p ->].
  destruct (step_cases c s (OpVaultsSetPaused (c_authority c) p)) as [E|E]; [by rewrite E in Hne|].
  destruct (authority_exact c s (step c s (OpVaultsSetPaused (c_authority c) p))) as (_ & HE & _). destruct (HE _ _ E) as (_ & Hp & HO).
  unfold only_vaults in HO. rewrite HO. exact Hp.
Qed.
