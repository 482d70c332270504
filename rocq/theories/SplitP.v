(** Moving an amount in parts. *)
From Verif Require Export OrderP UnlockOrderP.

Definition parts_total (xs : list Z) : Z := foldr Z.add 0 xs.
Definition ceils (i : Z) (xs : list Z) : Z := foldr (fun x acc => ceil_div (x * unit_index) i + acc) 0 xs.
Definition floors (i : Z) (xs : list Z) : Z := foldr (fun x acc => floor_div (x * unit_index) i + acc) 0 xs.
Lemma floor_add a b i : 0 < i -> a / i + b / i <= (a + b) / i <= a / i + b / i + 1.
Proof.
  intros. pose proof (Z.div_mod a i ltac:(lia)). pose proof (Z.mod_pos_bound a i ltac:(lia)).
  pose proof (Z.div_mod b i ltac:(lia)). pose proof (Z.mod_pos_bound b i ltac:(lia)).
  split.
  - apply Z.div_le_lower_bound; [lia|]. lia.
  - enough ((a + b) / i < a / i + b / i + 2) by lia. apply Z.div_lt_upper_bound; [lia|]. lia.
Qed.
Lemma floors_bound i x xs : 0 < i ->
  floor_div (parts_total (x :: xs) * unit_index) i - Z.of_nat (length xs) <= floors i (x :: xs) <= floor_div (parts_total (x :: xs) * unit_index) i.
Proof.
  intros Hi. revert x. induction xs as [|y xs IH]; intros x.
  - cbn -[Z.mul]. rewrite !Z.add_0_r. lia.
  - specialize (IH y). change (parts_total (x :: y :: xs)) with (x + parts_total (y :: xs)).
    change (floors i (x :: y :: xs)) with (floor_div (x * unit_index) i + floors i (y :: xs)).
    rewrite Z.mul_add_distr_r. unfold floor_div in *. pose proof (floor_add (x * unit_index) (parts_total (y :: xs) * unit_index) i Hi).
    cbn [length]. lia.
Qed.
Lemma ceils_bound i x xs : 0 < i ->
  ceil_div (parts_total (x :: xs) * unit_index) i <= ceils i (x :: xs) <= ceil_div (parts_total (x :: xs) * unit_index) i + Z.of_nat (length xs).
Proof.
  intros Hi. revert x. induction xs as [|y xs IH]; intros x.
  - cbn -[Z.mul]. rewrite !Z.add_0_r. lia.
  - specialize (IH y). change (parts_total (x :: y :: xs)) with (x + parts_total (y :: xs)).
    change (ceils i (x :: y :: xs)) with (ceil_div (x * unit_index) i + ceils i (y :: xs)).
    rewrite Z.mul_add_distr_r. unfold ceil_div in *. pose proof (floor_add (- (x * unit_index)) (- (parts_total (y :: xs) * unit_index)) i Hi) as H.
    rewrite <- Z.opp_add_distr in H. cbn [length]. lia.
Qed.
Lemma index_positive c s : chain_ok c -> reachable c s -> 0 < current_index s.
Proof. intros Hc Hr. destruct (winv_reachable _ _ Hc Hr) as [Hw _]. apply (wf_index _ _ Hw). Qed.

(** * Transfers *)
Lemma sends_effect c f t xs : chain_ok c -> forall s s', reachable c s -> executes c s (OpSend f t <$> xs) s' ->
  (forall a, bal s' a = bal s a - on a f (parts_total xs) + on a t (parts_total xs)) /\
  (forall a, prin s' a = prin s a - on a f (ceils (current_index s) xs) + on a t (ceils (current_index s) xs)) /\
  supply s' = supply s /\ total_principal s' = total_principal s /\ current_index s' = current_index s.
Proof.
  intros Hc. induction xs as [|x xs IH]; intros s s' Hr H.
  - cbn in H. subst s'. split; [|split; [|done]]; intros a; cbn; unfold on; repeat case_decide; lia.
  - destruct H as (s1 & E & H). destruct (transfer_message c s s1 f t x Hc Hr E) as [T _].
    destruct (IH s1 s' (reachable_step _ _ _ _ Hr E) H) as (B & P & S & TP & I).
    rewrite (tr_index _ _ _ _ _ T) in *. rewrite S, TP, I, (tr_supply _ _ _ _ _ T), (tr_total _ _ _ _ _ T). split; [|split; [|done]]; intros a.
    + rewrite B, (tr_balance _ _ _ _ _ T). cbn [parts_total foldr]. unfold on. repeat case_decide; fold (parts_total xs); lia.
    + rewrite P, (tr_principal _ _ _ _ _ T). cbn [ceils foldr]. unfold on. repeat case_decide; fold (ceils (current_index s) xs); lia.
Qed.
Theorem send_split c s s1 s2 f t x xs : chain_ok c -> reachable c s -> f <> t ->
  executes c s (OpSend f t <$> x :: xs) s1 -> exec c (OpSend f t (parts_total (x :: xs))) s = Ok s2 tt ->
  (forall a, bal s1 a = bal s2 a) /\ supply s1 = supply s2 /\ total_principal s1 = total_principal s2 /\
  (forall a, a <> f -> a <> t -> prin s1 a = prin s2 a) /\
  exists d, 0 <= d <= Z.of_nat (length xs) /\ prin s1 f = prin s2 f - d /\ prin s1 t = prin s2 t + d.
Proof.
  intros Hc Hr Hft H E. destruct (sends_effect c f t (x :: xs) Hc s s1 Hr H) as (B & P & S & TP & I).
  destruct (transfer_message _ _ _ _ _ _ Hc Hr E) as [T _].
  pose proof (ceils_bound (current_index s) x xs (index_positive _ _ Hc Hr)) as K.
  split; [intros a; by rewrite B, (tr_balance _ _ _ _ _ T)|]. split; [by rewrite S, (tr_supply _ _ _ _ _ T)|]. split; [by rewrite TP, (tr_total _ _ _ _ _ T)|].
  split; [intros a H1 H2; rewrite P, (tr_principal _ _ _ _ _ T); unfold on; by rewrite !decide_False by done|].
  exists (ceils (current_index s) (x :: xs) - ceil_div (parts_total (x :: xs) * unit_index) (current_index s)).
  split; [lia|]. rewrite !P, !(tr_principal _ _ _ _ _ T). unfold on. rewrite !(decide_True (P := f = f)), !(decide_True (P := t = t)) by done.
  rewrite !(decide_False (P := f = t)), !(decide_False (P := t = f)) by congruence. lia.
Qed.

(** * Redemptions *)
Definition redeems (g : string) (o : op) (x : Z) : Prop := exists ps chain tok rc, o = OpTransfer ps g chain tok rc (Some x).
Lemma redeems_effect c g b l xs : chain_ok c -> c_dec c g = Some (AUser b) -> Forall2 (redeems g) l xs ->
  forall s s', reachable c s -> executes c s l s' ->
  (forall a, bal s' a = bal s a - on a (AUser b) (parts_total xs)) /\
  (forall a, prin s' a = prin s a - on a (AUser b) (ceils (current_index s) xs)) /\
  supply s' = supply s - parts_total xs /\ total_principal s' = total_principal s - ceils (current_index s) xs /\ current_index s' = current_index s.
Proof.
  intros Hc Hd. induction 1 as [|o x l xs (ps & chain & tok & rc & ->) HF IH]; intros s s' Hr H.
  - cbn in H. subst s'. split; [|split; [|cbn; split; [lia|split; [lia|done]]]]; intros a; cbn; unfold on; repeat case_decide; lia.
  - destruct H as (s1 & E & H). destruct (redeem_books _ _ _ _ _ _ _ _ _ Hc Hr E) as (b' & x' & Hd' & Hx & _ & B1 & P1 & T1 & S1 & I1 & _).
    assert (b' = b) as -> by congruence. injection Hx as <-.
    destruct (IH s1 s' (reachable_step _ _ _ _ Hr E) H) as (B & P & S & TP & I).
    rewrite I1 in *. rewrite S, TP, I, S1, T1. cbn [parts_total ceils foldr]. fold (parts_total xs) (ceils (current_index s) xs).
    split; [|split; [|split; [lia|split; [lia|done]]]]; intros a.
    + rewrite B, B1. unfold on. repeat case_decide; lia.
    + rewrite P, P1. unfold on. repeat case_decide; lia.
Qed.
Theorem redeem_split c s s1 s2 g b l o x xs : chain_ok c -> reachable c s -> c_dec c g = Some (AUser b) ->
  Forall2 (redeems g) l (x :: xs) -> redeems g o (parts_total (x :: xs)) ->
  executes c s l s1 -> exec c o s = Ok s2 tt ->
  (forall a, bal s1 a = bal s2 a) /\ supply s1 = supply s2 /\ (forall a, a <> AUser b -> prin s1 a = prin s2 a) /\
  exists d, 0 <= d <= Z.of_nat (length xs) /\ prin s1 (AUser b) = prin s2 (AUser b) - d /\ total_principal s1 = total_principal s2 - d.
Proof.
  intros Hc Hr Hd HF Ho H E. destruct (redeems_effect c g b l _ Hc Hd HF s s1 Hr H) as (B & P & S & TP & I).
  destruct (redeems_effect c g b [o] [parts_total (x :: xs)] Hc Hd ltac:(by repeat constructor) s s2 Hr) as (B' & P' & S' & TP' & I'); [by exists s2|].
  pose proof (ceils_bound (current_index s) x xs (index_positive _ _ Hc Hr)) as K.
  change (parts_total [parts_total (x :: xs)]) with (parts_total (x :: xs) + 0) in *. rewrite Z.add_0_r in *.
  change (ceils (current_index s) [parts_total (x :: xs)]) with (ceil_div (parts_total (x :: xs) * unit_index) (current_index s) + 0) in *. rewrite Z.add_0_r in *.
  split; [intros a; by rewrite B, B'|]. split; [by rewrite S, S'|].
  split; [intros a Ha; rewrite P, P'; unfold on; by rewrite !decide_False by done|].
  exists (ceils (current_index s) (x :: xs) - ceil_div (parts_total (x :: xs) * unit_index) (current_index s)).
  split; [lia|]. split; [|lia]. rewrite P, P'. unfold on. rewrite !decide_True by done. lia.
Qed.

(** * Issuance *)
(** A token message for [r] over [x] with an index that is not higher than [i]. *)
Definition issues (c : config) (r : addr) (i : Z) (o : op) (x : Z) : Prop :=
  exists y bz t, o = OpDeliver y bz /\ carried_token c bz = Some t /\ c_acct c (sl_bytes (tk_recipient t)) = r /\ tk_amount t = x /\ tk_index t <= i.
Lemma issues_effect c r i l xs : chain_ok c -> r <> YieldA -> Forall2 (issues c r i) l xs ->
  forall s s', reachable c s -> current_index s = i -> executes c s l s' ->
  (forall a, bal s' a = bal s a + on a r (parts_total xs)) /\ (forall a, prin s' a = prin s a + on a r (floors i xs)) /\
  supply s' = supply s + parts_total xs /\ total_principal s' = total_principal s + ceils i xs /\ current_index s' = i.
Proof.
  intros Hc Hy. induction 1 as [|o x l xs (y & bz & t & -> & Ht & Hrt & Hx & Hi) HF IH]; intros s s' Hr His H.
  - cbn in H. subst s'. split; [|split; [|cbn; split; [lia|split; [lia|done]]]]; intros a; cbn; unfold on; repeat case_decide; lia.
  - destruct H as (s1 & E & H). destruct (issue_books _ _ _ _ _ _ Hc Hr Ht E) as [T1 K]. destruct K as (B1 & P1 & S1 & I1 & _); [lia|].
    rewrite Hrt, Hx in *. rewrite decide_False in T1 by done. setoid_rewrite decide_False in P1; [|done].
    destruct (IH s1 s' (reachable_step _ _ _ _ Hr E)) as (B & P & S & TP & I); [congruence|done|].
    rewrite I1, His in *. rewrite S, TP, I, S1, T1. cbn [parts_total ceils floors foldr]. fold (parts_total xs) (ceils i xs) (floors i xs).
    split; [|split; [|split; [lia|split; [lia|done]]]]; intros a.
    + rewrite B, B1. unfold on. repeat case_decide; lia.
    + rewrite P, P1. unfold on. repeat case_decide; lia.
Qed.
Theorem issue_split c s s1 s2 r l o x xs : chain_ok c -> reachable c s -> r <> YieldA ->
  Forall2 (issues c r (current_index s)) l (x :: xs) -> issues c r (current_index s) o (parts_total (x :: xs)) ->
  executes c s l s1 -> exec c o s = Ok s2 tt ->
  (forall a, bal s1 a = bal s2 a) /\ supply s1 = supply s2 /\ (forall a, a <> r -> prin s1 a = prin s2 a) /\
  prin s2 r - Z.of_nat (length xs) <= prin s1 r <= prin s2 r /\
  total_principal s2 <= total_principal s1 <= total_principal s2 + Z.of_nat (length xs).
Proof.
  intros Hc Hr Hy HF Ho H E. destruct (issues_effect c r _ l _ Hc Hy HF s s1 Hr eq_refl H) as (B & P & S & TP & I).
  destruct (issues_effect c r _ [o] [parts_total (x :: xs)] Hc Hy ltac:(by repeat constructor) s s2 Hr eq_refl) as (B' & P' & S' & TP' & I'); [by exists s2|].
  pose proof (ceils_bound (current_index s) x xs (index_positive _ _ Hc Hr)) as K.
  pose proof (floors_bound (current_index s) x xs (index_positive _ _ Hc Hr)) as L.
  change (parts_total [parts_total (x :: xs)]) with (parts_total (x :: xs) + 0) in *. rewrite Z.add_0_r in *.
  change (ceils (current_index s) [parts_total (x :: xs)]) with (ceil_div (parts_total (x :: xs) * unit_index) (current_index s) + 0) in *.
  change (floors (current_index s) [parts_total (x :: xs)]) with (floor_div (parts_total (x :: xs) * unit_index) (current_index s) + 0) in *. rewrite Z.add_0_r in *.
  split; [intros a; by rewrite B, B'|]. split; [by rewrite S, S'|].
  split; [intros a Ha; rewrite P, P'; unfold on; by rewrite !decide_False by done|].
  split; [rewrite P, P'; unfold on; rewrite !decide_True by done; lia|lia].
Qed.

(** * Unlocks *)
(** Emptied from the front up to some time. *)
Definition drained (s s' : state) (a : addr) (v : Z) : Prop := exists u, 0 < amount_at s (a, v, u) /\
  (forall w, w < u -> amount_at s' (a, v, w) = 0) /\ (forall w, u < w -> amount_at s' (a, v, w) = amount_at s (a, v, w)) /\
  amount_at s' (a, v, u) <= amount_at s (a, v, u).
Lemma drained_oldest s s' a v : pos_wf s -> oldest_first s s' a v -> drained s s' a v.
Proof.
  intros Hw (u & H1 & H2 & p & Hp & H3). exists u. unfold amount_at. rewrite Hp. pose proof (Hw _ _ Hp) as [Hpos _].
  split; [done|]. split; [intros w Hlt; by rewrite H1|]. split; [intros w Hlt; by rewrite H2|].
  destruct H3 as [->|(z & Hz & ->)]; cbn; lia.
Qed.
Lemma drained_trans s s1 s2 a v : drained s s1 a v -> drained s1 s2 a v -> drained s s2 a v.
Proof.
  intros (u & P & A & B & C) (u' & P' & A' & B' & C').
  destruct (Z.lt_trichotomy u' u) as [Hu|[->|Hu]]; [rewrite A in P' by done; lia|..].
  - exists u. split; [done|]. split; [done|]. split; [intros w Hw; by rewrite B', B|lia].
  - exists u'. rewrite B in P', C' by done. split; [done|]. split; [done|]. split; [intros w Hw; rewrite B', B by lia; done|lia].
Qed.
Lemma stake_same s t a v : (forall w, amount_at s (a, v, w) <= amount_at t (a, v, w)) -> stake s a v = stake t a v ->
  forall w, amount_at s (a, v, w) = amount_at t (a, v, w).
Proof.
  intros HW HS w. destruct (Z.lt_ge_cases (amount_at s (a, v, w)) (amount_at t (a, v, w))) as [L|L].
  - pose proof (stake_lt s t a v w HW L). lia.
  - specialize (HW w). lia.
Qed.
Lemma drained_unique s s' t' a v : pos_wf s' -> pos_wf t' -> drained s s' a v -> drained s t' a v -> stake s' a v = stake t' a v ->
  forall w, amount_at s' (a, v, w) = amount_at t' (a, v, w).
Proof.
  intros Ws Wt (u & P & A & B & C) (u' & P' & A' & B' & C') HS.
  destruct (Z.lt_trichotomy u u') as [Hu|[<-|Hu]].
  - intros w. symmetry. revert w. apply stake_same; [|done]. intros w. destruct (Z.lt_trichotomy w u') as [Hw|[->|Hw]].
    + rewrite A' by done. by apply amount_nonneg.
    + by rewrite B.
    + rewrite B, B' by lia. done.
  - assert (HO : forall w, w <> u -> amount_at s' (a, v, w) = amount_at t' (a, v, w)).
    { intros w Hw. destruct (Z.lt_ge_cases w u); [by rewrite A, A'|]. rewrite B, B' by lia. done. }
    destruct (Z.le_ge_cases (amount_at s' (a, v, u)) (amount_at t' (a, v, u))) as [L|L].
    + apply stake_same; [|done]. intros w. destruct (decide (w = u)) as [->|Hw]; [done|]. rewrite HO by done. lia.
    + intros w. symmetry. revert w. apply stake_same; [|done]. intros w. destruct (decide (w = u)) as [->|Hw]; [done|]. rewrite HO by done. lia.
  - apply stake_same; [|done]. intros w. destruct (Z.lt_trichotomy w u) as [Hw|[->|Hw]].
    + rewrite A by done. by apply amount_nonneg.
    + by rewrite B'.
    + rewrite B, B' by lia. done.
Qed.
Definition unlock_part (g : string) (v x : Z) : op := OpUnlock g v (Some x).
Lemma parts_effect c g v b xs : chain_ok c -> c_dec c g = Some (AUser b) -> forall x s s', reachable c s -> executes c s (unlock_part g v <$> x :: xs) s' ->
  let a := AUser b in
  drained s s' a v /\ stake s' a v = stake s a v - parts_total (x :: xs) /\ (forall k, k.1 <> (a, v) -> positions s' !! k = positions s !! k) /\
  (v = STAKED -> forall y, bal s' y = bal s y - on y StakedA (parts_total (x :: xs)) + on y a (parts_total (x :: xs))) /\
  supply s' = supply s /\ current_index s' = current_index s /\ st_portal s' = st_portal s /\ st_world s' = st_world s.
Proof.
  intros Hc Hd. induction xs as [|x2 xs IH]; intros x s s' Hr (s1 & E & H) a; subst a; unfold unlock_part in E;
    assert (W : winv c s) by (by apply winv_reachable);
    destruct (unlock_effect _ _ _ _ _ _ Hc W E) as (b' & z & Hb & Hz & _ & _ & L); cbn zeta in L;
    assert (b' = b) as -> by congruence; injection Hz as <-;
    destruct L as (_ & _ & HS & HO & HK & HB & _ & _ & S1 & I1 & P1 & W1); apply (drained_oldest _ _ _ _ (wi_pos _ _ W)) in HO.
  - cbn in H. subst s'. change (parts_total [x]) with (x + 0). rewrite Z.add_0_r. split; [exact HO|]. split; [done|]. split; [done|]. split; [exact HB|done].
  - destruct (IH x2 s1 s' (reachable_step _ _ _ _ Hr E) H) as (D & S & K & B & S2 & I2 & P2 & W2).
    change (parts_total (x :: x2 :: xs)) with (x + parts_total (x2 :: xs)). set (T := parts_total (x2 :: xs)) in *.
    split; [by eapply drained_trans|]. split; [lia|]. split; [intros k Hk; by rewrite K, HK|]. split; [|repeat (split; [congruence|]); congruence].
    intros Hv y. rewrite B, HB by done. unfold on. repeat case_decide; lia.
Qed.
Theorem unlock_split c s s1 s2 g v x xs : chain_ok c -> reachable c s ->
  executes c s (unlock_part g v <$> x :: xs) s1 -> exec c (OpUnlock g v (Some (parts_total (x :: xs)))) s = Ok s2 tt ->
  (forall k, amount_at s1 k = amount_at s2 k) /\ (v = STAKED -> forall y, bal s1 y = bal s2 y) /\
  supply s1 = supply s2 /\ current_index s1 = current_index s2 /\ st_portal s1 = st_portal s2 /\ st_world s1 = st_world s2.
Proof.
  intros Hc Hr H E. assert (W : winv c s) by by apply winv_reachable.
  destruct (unlock_effect _ _ _ _ _ _ Hc W E) as (b & z & Hd & _ & _).
  destruct (parts_effect c g v b xs Hc Hd x s s1 Hr H) as (D & S & K & B & S1 & I1 & P1 & W1).
  destruct (parts_effect c g v b [] Hc Hd (parts_total (x :: xs)) s s2 Hr) as (D' & S' & K' & B' & S1' & I1' & P1' & W1'); [by exists s2|].
  change (parts_total [parts_total (x :: xs)]) with (parts_total (x :: xs) + 0) in *. rewrite Z.add_0_r in *.
  assert (R1 : winv c s1) by (apply winv_reachable; [done|by eapply executes_reachable]).
  assert (R2 : winv c s2) by (apply winv_reachable; [done|exact (reachable_step _ _ _ _ Hr E)]).
  split; [|split; [intros Hv y; by rewrite B, B'|repeat (split; [congruence|]); congruence]].
  intros [[a' v'] u]. destruct (decide ((a', v') = (AUser b, v))) as [[= -> ->]|Hk].
  - apply (drained_unique s); try done; [apply R1|apply R2|congruence].
  - unfold amount_at. by rewrite K, K'.
Qed.
