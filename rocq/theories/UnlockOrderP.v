(** Staked unlocks of different users in any order. *)
From Verif Require Export OrderP.

(** * Sums over two maps *)
Section sums.
  Context {K A : Type} `{Countable K}.
  Definition weight (f : K -> A -> Z) (m : gmap K A) (k : K) : Z := match m !! k with Some v => f k v | None => 0 end.
  Lemma fsum_weight f m k : fsum f m = weight f m k + fsum f (delete k m).
  Proof. unfold weight. destruct (m !! k) as [v|] eqn:E; [by apply fsum_delete|]. by rewrite delete_notin. Qed.
  Lemma weight_delete f m k j : weight f (delete k m) j = if decide (k = j) then 0 else weight f m j.
  Proof. unfold weight. case_decide as E; [subst; by rewrite lookup_delete|by rewrite lookup_delete_ne]. Qed.
  Lemma fsum_maps_le f (m1 : gmap K A) : forall m2, (forall k, weight f m1 k <= weight f m2 k) -> fsum f m1 <= fsum f m2.
  Proof.
    induction m1 as [|k v m1 Hk IH] using map_ind; intros m2 HW.
    - rewrite fsum_empty. apply fsum_nonneg. intros k v Hv. specialize (HW k). unfold weight in HW. by rewrite lookup_empty, Hv in HW.
    - rewrite fsum_insert_fresh by done. rewrite (fsum_weight f m2 k). pose proof (HW k) as Hk2. unfold weight at 1 in Hk2. rewrite lookup_insert in Hk2.
      enough (fsum f m1 <= fsum f (delete k m2)) by lia. apply IH. intros j. rewrite weight_delete. case_decide as E.
      + subst j. unfold weight. by rewrite Hk.
      + specialize (HW j). unfold weight in *. by rewrite lookup_insert_ne in HW.
  Qed.
  Lemma fsum_maps_lt f m1 m2 k : (forall k, weight f m1 k <= weight f m2 k) -> weight f m1 k < weight f m2 k -> fsum f m1 < fsum f m2.
  Proof.
    intros HW Hk. rewrite (fsum_weight f m1 k), (fsum_weight f m2 k).
    enough (fsum f (delete k m1) <= fsum f (delete k m2)) by lia. apply fsum_maps_le. intros j. rewrite !weight_delete. case_decide; [lia|apply HW].
  Qed.
  Lemma fsum_maps_eq f m1 m2 : (forall k, weight f m1 k = weight f m2 k) -> fsum f m1 = fsum f m2.
  Proof. intros HW. apply Z.le_antisymm; apply fsum_maps_le; intros k; rewrite HW; lia. Qed.
End sums.

(** * The positions after an unlock are determined *)
Definition agree (s t : state) (a : addr) (v : Z) : Prop := forall u, positions s !! (a, v, u) = positions t !! (a, v, u).
Definition of_key (a : addr) (v : Z) (f : position -> Z) (k : addr * Z * Z) (p : position) : Z := if bool_decide (k.1 = (a, v)) then f p else 0.
Lemma stake_fsum s a v : stake s a v = fsum (of_key a v pos_amount) (positions s).
Proof. done. Qed.
Lemma weight_of a v f m k : weight (of_key a v f) m k = if bool_decide (k.1 = (a, v)) then match m !! k with Some p => f p | None => 0 end else 0.
Proof. unfold weight, of_key. case_bool_decide; by destruct (m !! k). Qed.
Lemma agree_sum s t a v f : agree s t a v -> fsum (of_key a v f) (positions s) = fsum (of_key a v f) (positions t).
Proof.
  intros H. apply fsum_maps_eq. intros [[a' v'] u]. rewrite !weight_of. case_bool_decide as E; [|done]. cbn in E. injection E as -> ->. by rewrite H.
Qed.
Lemma stake_lt s t a v u : (forall w, amount_at s (a, v, w) <= amount_at t (a, v, w)) -> amount_at s (a, v, u) < amount_at t (a, v, u) -> stake s a v < stake t a v.
Proof.
  intros HW Hu. rewrite !stake_fsum. apply (fsum_maps_lt _ _ _ (a, v, u)).
  - intros [[a' v'] w]. rewrite !weight_of. case_bool_decide as E; [|lia]. cbn in E. injection E as -> ->. apply HW.
  - rewrite !weight_of. rewrite bool_decide_true by done. exact Hu.
Qed.
Lemma amount_nonneg s k : pos_wf s -> 0 <= amount_at s k.
Proof. intros H. unfold amount_at, positions. destruct (v_positions (st_vaults s) !! k) eqn:E; [|lia]. apply H in E as [? _]. lia. Qed.
Lemma oldest_sooner s t s' t' a v u u' p : pos_wf s' -> agree s t a v -> u < u' ->
  (forall w, u < w -> positions s' !! (a, v, w) = positions s !! (a, v, w)) ->
  (forall w, w < u' -> positions t' !! (a, v, w) = None) -> (forall w, u' < w -> positions t' !! (a, v, w) = positions t !! (a, v, w)) ->
  positions t !! (a, v, u') = Some p -> amount_at t' (a, v, u') < pos_amount p -> stake t' a v < stake s' a v.
Proof.
  intros Hw HA Hu Hs Ht1 Ht2 Hp Hl. assert (Hs' : amount_at s' (a, v, u') = pos_amount p). { unfold amount_at. by rewrite Hs, HA, Hp. }
  apply (stake_lt _ _ _ _ u'); [|by rewrite Hs']. intros w. destruct (Z.lt_trichotomy w u') as [Hw'|[->|Hw']]; [|lia|].
  - unfold amount_at at 1. rewrite Ht1 by done. by apply amount_nonneg.
  - unfold amount_at. rewrite Ht2, Hs, HA by lia. done.
Qed.
Theorem oldest_unique s t s' t' a v : pos_wf s -> pos_wf t -> pos_wf s' -> pos_wf t' -> agree s t a v -> stake s' a v = stake t' a v ->
  oldest_first s s' a v -> oldest_first t t' a v -> agree s' t' a v.
Proof.
  intros Ws Wt Ws' Wt' HA HS (u & S1 & S2 & p & Hp & S3) (u' & T1 & T2 & p' & Hp' & T3).
  assert (Lp : amount_at s' (a, v, u) < pos_amount p).
  { unfold amount_at. destruct S3 as [->|(z & Hz & ->)]; [by apply Ws in Hp as [? _]|cbn; lia]. }
  assert (Lp' : amount_at t' (a, v, u') < pos_amount p').
  { unfold amount_at. destruct T3 as [->|(z & Hz & ->)]; [by apply Wt in Hp' as [? _]|cbn; lia]. }
  assert (HA' : agree t s a v) by (intros w; by rewrite HA).
  destruct (Z.lt_trichotomy u u') as [Hu|[<-|Hu]].
  - pose proof (oldest_sooner s t s' t' a v u u' p' Ws' HA Hu S2 T1 T2 Hp' Lp'). lia.
  - assert (p' = p) as -> by (rewrite HA in Hp; congruence).
    assert (Hother : forall w, w <> u -> positions s' !! (a, v, w) = positions t' !! (a, v, w)).
    { intros w Hw. destruct (Z.lt_ge_cases w u); [by rewrite S1, T1|]. by rewrite S2, T2, HA by lia. }
    assert (Heq : amount_at s' (a, v, u) = amount_at t' (a, v, u)).
    { destruct (Z.lt_trichotomy (amount_at s' (a, v, u)) (amount_at t' (a, v, u))) as [L|[E|L]]; [|done|].
      - enough (stake s' a v < stake t' a v) by lia. apply (stake_lt _ _ _ _ u); [|done]. intros w. destruct (decide (w = u)) as [->|]; [lia|].
        unfold amount_at. by rewrite Hother.
      - enough (stake t' a v < stake s' a v) by lia. apply (stake_lt _ _ _ _ u); [|done]. intros w. destruct (decide (w = u)) as [->|]; [lia|].
        unfold amount_at. by rewrite Hother. }
    intros w. destruct (decide (w = u)) as [->|Hw]; [|by apply Hother].
    unfold amount_at in Heq. destruct S3 as [E1|(z & Hz & E1)], T3 as [E2|(z' & Hz' & E2)]; rewrite E1, E2 in *; cbn in Heq; try done; try lia.
    assert (z' = z) as -> by lia. done.
  - pose proof (oldest_sooner t s t' s' a v u' u p Wt' HA' Hu T2 S1 S2 Hp Lp). lia.
Qed.

(** * Lists of staked unlocks *)
Definition unlock_op (e : string * Z) : op := OpUnlock e.1 STAKED (Some e.2).
Definition part_taken (s' : state) (a : addr) (p : position) : Z := pos_amount p - amount_at s' (a, STAKED, pos_time p).
Definition moved_by (i : Z) (s s' : state) (a : addr) : Z := fsum (of_key a STAKED (fun p => ceil_div (part_taken s' a p * unit_index) i)) (positions s).
Definition removed_by (s s' : state) (a : addr) : Z := fsum (of_key a STAKED (fun p => floor_div (part_taken s' a p * unit_index) (pos_index p))) (positions s).
Definition user_of (c : config) (e : string * Z) (f : addr -> Z) : Z := match c_dec c e.1 with Some a => f a | None => 0 end.
Lemma taken_agree s' t' a p : agree s' t' a STAKED -> part_taken s' a p = part_taken t' a p.
Proof. intros H. unfold part_taken, amount_at. by rewrite H. Qed.
Lemma moved_agree i s t s' t' a : agree s t a STAKED -> agree s' t' a STAKED -> moved_by i s s' a = moved_by i t t' a /\ removed_by s s' a = removed_by t t' a.
Proof.
  intros H H'. unfold moved_by, removed_by. rewrite !(agree_sum s t a STAKED) by done.
  split; apply fsum_ext; intros k p _; unfold of_key; case_bool_decide; try done; by rewrite (taken_agree s' t').
Qed.
Definition outcome_of (c : config) (s s' : state) (e : string * Z) : Prop :=
  exists a t t', c_dec c e.1 = Some a /\ pos_wf t /\ pos_wf t' /\ agree s t a STAKED /\ agree t' s' a STAKED /\
    oldest_first t t' a STAKED /\ stake t' a STAKED = stake s a STAKED - e.2.
Lemma unlocks_effect c l : chain_ok c -> forall s s', reachable c s -> NoDup ((fun e => c_dec c e.1) <$> l) -> executes c s (unlock_op <$> l) s' ->
  (forall k, (forall e a, e ∈ l -> c_dec c e.1 = Some a -> k.1 <> (a, STAKED)) -> positions s' !! k = positions s !! k) /\
  (forall e, e ∈ l -> outcome_of c s s' e) /\
  (forall y, bal s' y = bal s y + sum_over (fun e => user_of c e (fun a => on y a e.2 - on y StakedA e.2)) l) /\
  (forall y, prin s' y = prin s y + sum_over (fun e => user_of c e (fun a => on y a (moved_by (current_index s) s s' a) - on y StakedA (moved_by (current_index s) s s' a))) l) /\
  vault_total s' STAKED = vault_total s STAKED - sum_over (fun e => user_of c e (removed_by s s')) l /\
  vault_total s' FLEXIBLE = vault_total s FLEXIBLE /\ v_total_flex (st_vaults s') = v_total_flex (st_vaults s) /\
  supply s' = supply s /\ total_principal s' = total_principal s /\ current_index s' = current_index s /\ rewards s' = rewards s /\ distributed s' = distributed s /\
  st_portal s' = st_portal s /\ st_world s' = st_world s.
Proof.
  intros Hc. induction l as [|[g x] l IH]; intros s s' Hr Hn H.
  - cbn in H. subst s'. cbn. split; [done|]. split; [intros e He; by apply elem_of_nil in He|]. split; [intros; lia|]. split; [intros; lia|]. split; [lia|done].
  - destruct H as (s1 & E & H). unfold unlock_op in E. cbn [fst snd] in E. rewrite fmap_cons in Hn. apply NoDup_cons in Hn as [Hx Hn]. cbn [fst] in Hx.
    destruct (winv_reachable _ _ Hc Hr) as [Hw _]. pose proof (reachable_step _ _ _ _ Hr E) as Hr1. destruct (winv_reachable _ _ Hc Hr1) as [Hw1 _].
    assert (W0 : winv c s) by by apply winv_reachable. assert (W1 : winv c s1) by by apply winv_reachable.
    destruct (unlock_effect c s s1 g STAKED (Some x) Hc W0 E) as (b & x' & Hd & Hxx & _ & _ & L). cbn zeta in L. injection Hxx as <-.
    destruct L as (_ & _ & HS & HO & HK & HB & _ & _ & S1 & I1 & PT1 & WD1). specialize (HB eq_refl).
    destruct (staked_payout c s s1 g x b Hc Hr Hd E) as (_ & HQ & TP1 & VT1 & VF1 & F1 & RW1 & D1).
    destruct (IH s1 s' Hr1 Hn H) as (K & O & B & Q & T & VF & F & S2 & TP2 & I2 & RW2 & D2 & PT2 & WD2). clear IH.
    set (a := AUser b) in *.
    assert (Hna : forall e a', e ∈ l -> c_dec c e.1 = Some a' -> a' <> a).
    { intros e a' He Ha ->. apply Hx. apply elem_of_list_fmap. exists e. split; [by rewrite Hd|done]. }
    assert (A1 : agree s1 s' a STAKED). { intros u. symmetry. apply K. intros e a' He Ha [= Hbad]. by apply (Hna e a' He Ha). }
    assert (A2 : forall e a', e ∈ l -> c_dec c e.1 = Some a' -> agree s s1 a' STAKED).
    { intros e a' He Ha u. symmetry. apply HK. cbn. intros [= Hbad]. by apply (Hna e a' He Ha). }
    assert (M1 : moved_by (current_index s) s s1 a = moved_by (current_index s) s s' a /\ removed_by s s1 a = removed_by s s' a) by by apply moved_agree.
    assert (M2 : forall e a', e ∈ l -> c_dec c e.1 = Some a' -> moved_by (current_index s) s1 s' a' = moved_by (current_index s) s s' a' /\ removed_by s1 s' a' = removed_by s s' a').
    { intros e a' He Ha. apply moved_agree; [|done]. intros u. symmetry. by apply (A2 e). }
    assert (SUM : forall f h : string * Z -> Z, (forall e, e ∈ l -> f e = h e) -> sum_over f l = sum_over h l).
    { clear. intros f h. unfold sum_over. induction l as [|e l IH]; intros Hf; [done|]. cbn. rewrite Hf by (by left). rewrite IH; [done|]. intros e' He. apply Hf. by right. }
    split; [|split; [|split; [|split; [|split; [|repeat (split; [congruence|]); congruence]]]]].
    + intros k Hk. rewrite K; [|intros e a' He Ha; apply (Hk e); [by right|done]]. apply HK. apply (Hk (g, x)); [by left|done].
    + intros e He. apply elem_of_cons in He as [->|He].
      * exists a, s, s1. split; [done|]. split; [apply W0|]. split; [apply W1|]. split; [done|]. split; [done|]. split; [done|]. exact HS.
      * destruct (O e He) as (a' & t & t' & Ha & Wt & Wt' & At & At' & Ot & St). exists a', t, t'. split; [done|]. split; [done|]. split; [done|].
        split; [intros u; by rewrite (A2 e a' He Ha u)|]. split; [done|]. split; [done|]. rewrite St. f_equal. rewrite !stake_fsum. symmetry. apply agree_sum. by apply (A2 e).
    + intros y. rewrite B, HB. unfold sum_over at 2. cbn [foldr]. fold (sum_over (fun e => user_of c e (fun a => on y a e.2 - on y StakedA e.2)) l).
      unfold user_of at 2. cbn [fst snd]. rewrite Hd. fold a. lia.
    + intros y. rewrite Q, HQ, I1. unfold sum_over at 2. cbn [foldr]. unfold user_of at 2. cbn [fst snd]. rewrite Hd. fold a.
      rewrite <- (proj1 M1).
      rewrite (SUM _ (fun e => user_of c e (fun a => on y a (moved_by (current_index s) s s' a) - on y StakedA (moved_by (current_index s) s s' a)))).
      2: { intros e He. unfold user_of. destruct (c_dec c e.1) as [a'|] eqn:Ha; [|done]. by rewrite (proj1 (M2 e a' He Ha)). }
      change (position_sum _ _ s) with (moved_by (current_index s) s s1 a). unfold sum_over. lia.
    + rewrite T, VT1. unfold sum_over at 2. cbn [foldr]. unfold user_of at 2. cbn [fst snd]. rewrite Hd. fold a.
      rewrite <- (proj2 M1). rewrite (SUM _ (fun e => user_of c e (removed_by s s'))).
      2: { intros e He. unfold user_of. destruct (c_dec c e.1) as [a'|] eqn:Ha; [|done]. by rewrite (proj2 (M2 e a' He Ha)). }
      change (position_sum _ _ s) with (removed_by s s1 a). unfold sum_over. lia.
Qed.
Theorem unlocks_order c s s1 s2 l l' : chain_ok c -> reachable c s -> NoDup ((fun e => c_dec c e.1) <$> l) -> l ≡ₚ l' ->
  executes c s (unlock_op <$> l) s1 -> executes c s (unlock_op <$> l') s2 ->
  (forall a, bal s1 a = bal s2 a) /\ (forall a, prin s1 a = prin s2 a) /\ positions s1 = positions s2 /\
  (forall w, a_vault w -> vault_total s1 w = vault_total s2 w /\ vault_users s1 w = vault_users s2 w) /\
  v_total_flex (st_vaults s1) = v_total_flex (st_vaults s2) /\
  supply s1 = supply s2 /\ total_principal s1 = total_principal s2 /\ current_index s1 = current_index s2 /\ rewards s1 = rewards s2 /\
  distributed s1 = distributed s2 /\ st_portal s1 = st_portal s2 /\ st_world s1 = st_world s2.
Proof.
  intros Hc Hr Hn HP H1 H2.
  destruct (unlocks_effect c l Hc s s1 Hr Hn H1) as (K & O & B & Q & T & VF & F & S2 & TP2 & I2 & RW2 & D2 & PT2 & WD2).
  destruct (unlocks_effect c l' Hc s s2 Hr ltac:(by rewrite <- HP) H2) as (K' & O' & B' & Q' & T' & VF' & F' & S2' & TP2' & I2' & RW2' & D2' & PT2' & WD2').
  assert (HA : forall e a, e ∈ l -> c_dec c e.1 = Some a -> agree s1 s2 a STAKED).
  { intros e a He Ha. destruct (O e He) as (a1 & t1 & t1' & Ha1 & W1 & W1' & A1 & A1' & O1 & X1). rewrite HP in He.
    destruct (O' e He) as (a2 & t2 & t2' & Ha2 & W2 & W2' & A2 & A2' & O2 & X2).
    assert (a1 = a) as -> by congruence. assert (a2 = a) as -> by congruence.
    assert (HU : agree t1' t2' a STAKED).
    { apply (oldest_unique t1 t2); try done; [|congruence]. intros u. by rewrite <- A1, <- A2. }
    intros u. by rewrite <- A1', <- A2', HU. }
  assert (HPos : positions s1 = positions s2).
  { apply map_eq. intros [[a v] u].
    destruct (decide (v = STAKED /\ Exists (fun e => c_dec c e.1 = Some a) l)) as [[-> (e & He & Ha)%Exists_exists]|Hno]; [by apply (HA e)|].
    assert (Hk : forall e a', e ∈ l -> c_dec c e.1 = Some a' -> (a, v, u).1 <> (a', STAKED)).
    { intros e a' He Ha [= -> ->]. apply Hno. split; [done|]. apply Exists_exists. by exists e. }
    rewrite K by done. rewrite K'; [done|]. intros e a' He. rewrite <- HP in He. by apply Hk. }
  assert (HM : forall i a, moved_by i s s1 a = moved_by i s s2 a /\ removed_by s s1 a = removed_by s s2 a).
  { intros i a. apply moved_agree; [done|]. intros u. by rewrite HPos. }
  assert (SUM : forall f h : string * Z -> Z, (forall e, f e = h e) -> sum_over f l = sum_over h l').
  { intros f h Hf. rewrite <- (sum_over_perm h _ _ HP). unfold sum_over. clear - Hf. induction l as [|e l IH]; [done|]. cbn. by rewrite Hf, IH. }
  split; [intros a; by rewrite B, B', (sum_over_perm _ _ _ HP)|].
  split; [intros a; rewrite Q, Q'; f_equal; apply SUM; intros e; unfold user_of; destruct (c_dec c e.1); [|done]; by rewrite (proj1 (HM _ _))|].
  split; [done|]. split; [|repeat (split; [congruence|]); congruence].
  intros w Hw. split; [destruct Hw as [->| ->]; [|congruence]; rewrite T, T'; f_equal; apply SUM; intros e; unfold user_of; destruct (c_dec c e.1); [|done]; by rewrite (proj2 (HM 0 _))|].
  rewrite !(users_counted c) by (done || (eapply executes_reachable; done)). unfold stakers. by rewrite HPos.
Qed.
Theorem unlock_determined c s t s' t' g v x a : chain_ok c -> reachable c s -> reachable c t -> c_dec c g = Some a ->
  (forall u, positions s !! (a, v, u) = positions t !! (a, v, u)) ->
  exec c (OpUnlock g v x) s = Ok s' tt -> exec c (OpUnlock g v x) t = Ok t' tt ->
  forall u, positions s' !! (a, v, u) = positions t' !! (a, v, u).
Proof.
  intros Hc Hr Hr' Hd HA E E'.
  assert (W0 : winv c s) by by apply winv_reachable. assert (W1 : winv c s') by (apply winv_reachable; [done|exact (reachable_step _ _ _ _ Hr E)]).
  assert (W0' : winv c t) by by apply winv_reachable. assert (W1' : winv c t') by (apply winv_reachable; [done|exact (reachable_step _ _ _ _ Hr' E')]).
  destruct (unlock_effect _ _ _ _ _ _ Hc W0 E) as (b & z & Hb & Hz & _ & _ & L). cbn zeta in L. destruct L as (_ & _ & HS & HO & _).
  destruct (unlock_effect _ _ _ _ _ _ Hc W0' E') as (b' & z' & Hb' & Hz' & _ & _ & L). cbn zeta in L. destruct L as (_ & _ & HS' & HO' & _).
  assert (AUser b = a) as <- by congruence. assert (b' = b) as -> by congruence. assert (z' = z) as -> by congruence.
  apply (oldest_unique s t); try apply W0; try apply W1; try apply W0'; try apply W1'; try done.
  rewrite HS, HS'. f_equal. rewrite !stake_fsum. by apply agree_sum.
Qed.
