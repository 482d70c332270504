(** When the order of messages does not matter. *)
From Verif Require Import EventsP.
From Verif Require Export UpdateP ExactP.

(** All messages of [l] succeed, one after the other, and lead from [s] to [s']. *)
Fixpoint executes (c : config) (s : state) (l : list op) (s' : state) : Prop :=
  match l with [] => s' = s | o :: l => exists s1, exec c o s = Ok s1 tt /\ executes c s1 l s' end.
Lemma executes_app c l1 l2 : forall s s', executes c s (l1 ++ l2) s' <-> exists s1, executes c s l1 s1 /\ executes c s1 l2 s'.
Proof.
  induction l1 as [|o l1 IH]; intros s s'; cbn; [naive_solver|]. setoid_rewrite IH. naive_solver.
Qed.
Lemma executes_reachable c l : forall s s', reachable c s -> executes c s l s' -> reachable c s'.
Proof.
  induction l as [|o l IH]; intros s s' Hr; cbn; [by intros ->|]. intros (s1 & E & H). by eapply IH; [eapply reachable_step|].
Qed.

Lemma addz_comm {K} `{Countable K} (i j : K) x y (m : gmap K Z) : addz i x (addz j y m) = addz j y (addz i x m).
Proof.
  apply map_eq. intros k. unfold addz, mget. destruct (decide (i = j)) as [->|Hn].
  - rewrite !lookup_insert. cbn. rewrite !insert_insert. destruct (decide (k = j)) as [->|]; [rewrite !lookup_insert; f_equal; lia|].
    by rewrite !lookup_insert_ne.
  - rewrite (lookup_insert_ne _ j i), (lookup_insert_ne _ i j) by done. by rewrite insert_commute.
Qed.

Lemma claimable_nonneg' s a : 0 <= claimable s a.
Proof. unfold claimable. case_match; lia. Qed.

(** * Claims *)
Definition claim_fits (c : config) (g : string) (b : bytes) (s : state) : Prop :=
  c_dec c g = Some (AUser b) /\ d_paused (st_dollar s) = false /\ c_blocked c (AUser b) = false /\
  int_fits (prin s (AUser b) * current_index s) = true /\
  (claimable s (AUser b) = 0 \/ claimable s (AUser b) <= bal s YieldA /\ int_range (bal s (AUser b) + claimable s (AUser b))).
Lemma claim_does c g s s' : (forall a, 0 <= bal s a) -> exec c (OpClaimYield g) s = Ok s' tt ->
  exists b, claim_fits c g b s /\ s' = pay s (AUser b) (claimable s (AUser b)).
Proof.
  intros Hb H. destruct (claim_inv' _ _ _ _ H) as (b & _ & Hd & _).
  destruct (claim_exact _ _ _ _ _ Hd Hb H) as (y & Hy & HF & Hp & Hbl & Hle & ->).
  exists b. rewrite <- claimable_present in Hy by done.
  assert (Hg : get_yield_of (AUser b) s = Ok s y).
  { rewrite get_yield_of_run by done. rewrite <- claimable_present by done. by rewrite Hy. }
  subst y. split; [|done]. split; [done|]. split; [done|]. split; [done|]. split; [done|].
  destruct (decide (claimable s (AUser b) = 0)) as [|Hn]; [by left|right]. split; [destruct Hle; [done|congruence]|].
  set (y := claimable s (AUser b)) in *.
  cbn in H. apply signed_ok in H as (H & _). unfold claim_yield in H. unfold bind at 1, gets at 1 in H. rewrite Hp in H.
  unfold bind at 1, get_yield in H. rewrite Hd in H. unfold bind at 1 in H. rewrite Hg in H. cbn [ret fst snd] in H.
  apply bind_ok in H as (s1 & z & E0 & H). apply new_coins_ok in E0 as (-> & -> & Hy).
  unfold send_to_account in H. rewrite Hbl in H. unfold send_coins in H.
  rewrite (proj2 (Z.eqb_neq _ 0)) in H by done. apply bind_ok in H as (s3 & [] & E1 & H). apply bind_ok in H as (s4 & [] & E2 & H).
  apply bind_ok in H as (s5 & [] & E3 & H). unfold sub_coins in E1.
  unfold bind at 1, gets at 1 in E1. destruct (bal s YieldA <? y); [discriminate|]. unfold set_bal, modify in E1. injection E1 as <-.
  unfold send_restriction in E2. rewrite (proj2 (Z.eqb_neq _ 0)) in E2 by done. rewrite bool_decide_true in E2 by done.
  injection E2 as <-. unfold add_coins in E3. unfold bind at 1, gets at 1 in E3.
  apply bind_ok in E3 as (? & z & Ez & E3). apply lift_ok in Ez as [Ez _].
  revert Ez. unfold bal at 1. cbn. rewrite lookup_insert_ne by done. fold (bal s (AUser b)). unfold int_add, int_chk, int_fits, int_range.
  change (default 0 (bk_bal (st_bank s) !! AUser b)) with (bal s (AUser b)).
  destruct (Z.ltb_spec (Z.abs (bal s (AUser b) + y)) (2 ^ 256)); [done|discriminate].
Qed.
Lemma claim_done c g b s : (forall a, 0 <= bal s a) -> claim_fits c g b s ->
  exec c (OpClaimYield g) s = Ok (pay s (AUser b) (claimable s (AUser b))) tt.
Proof.
  intros Hb (Hd & Hp & Hbl & F1 & F2).
  assert (R : runs (exec c (OpClaimYield g)) s (fun _ _ => True)).
  { cbn [exec]. unfold signed. rewrite Hd. unfold claim_yield. apply runs_bind, runs_gets. rewrite Hp.
    apply runs_bind. unfold get_yield. rewrite Hd. apply runs_bind.
    eapply runs_of_ok; [by apply get_yield_of_run|]. rewrite claimable_present in F2 by done. cbn zeta in F2 |- *.
    set (y := if 1 <? present (prin s (AUser b)) (current_index s) - bal s (AUser b) then _ else _) in *.
    apply runs_ret. cbn [fst snd].
    assert (0 <= y). { unfold y. case_match; lia. }
    apply runs_bind. unfold new_coins. rewrite (proj2 (Z.ltb_ge y 0)) by done. apply runs_ret.
    unfold send_to_account. rewrite Hbl. unfold send_coins. destruct (Z.eqb_spec y 0) as [|Hy0]; [by apply runs_ret|].
    destruct F2 as [|[F2 F3]]; [done|].
    apply runs_bind. unfold sub_coins. apply runs_bind, runs_gets. rewrite (proj2 (Z.ltb_ge _ y)) by lia. unfold set_bal. apply runs_modify.
    apply runs_bind. unfold send_restriction. rewrite (proj2 (Z.eqb_neq y 0)) by done. rewrite bool_decide_true by done. apply runs_ret.
    apply runs_bind. unfold add_coins. apply runs_bind, runs_gets, runs_bind. eapply runs_lift.
    { apply int_chk_run. unfold bal. cbn. rewrite lookup_insert_ne by done. exact F3. }
    unfold set_bal. by apply runs_modify, runs_modify. }
  apply runs_ok in R as (s' & [] & E & _). rewrite E. f_equal.
  destruct (claim_does _ _ _ _ Hb E) as (b' & (Hd' & _) & ->). by assert (b' = b) as -> by congruence.
Qed.
Lemma pay_pay s a b y z : pay (pay s a y) b z = pay (pay s b z) a y.
Proof.
  unfold pay. destruct (0 <? y), (0 <? z); try done. rewrite !send_from_yield. cbn. f_equal. f_equal.
  rewrite (addz_comm YieldA a). rewrite (addz_comm b a). f_equal. rewrite (addz_comm YieldA b). f_equal. apply addz_comm.
Qed.
Lemma pay_other s a b y : a <> b -> b <> YieldA -> claimable (pay s a y) b = claimable s b /\ bal (pay s a y) b = bal s b /\
  prin (pay s a y) b = prin s b /\ current_index (pay s a y) = current_index s /\ d_paused (st_dollar (pay s a y)) = d_paused (st_dollar s).
Proof.
  intros H1 H2. assert (HB : bal (pay s a y) b = bal s b).
  { unfold pay. destruct (0 <? y); [|done]. rewrite bal_send. unfold ind. rewrite !decide_False by congruence. lia. }
  assert (HD : st_dollar (pay s a y) = st_dollar s). { unfold pay. destruct (0 <? y); [|done]. by rewrite send_from_yield. }
  unfold claimable. rewrite HB. unfold prin, current_index. by rewrite HD.
Qed.
Lemma claims_swap c g1 g2 s s1 s2 : chain_ok c -> reachable c s -> c_dec c g1 <> c_dec c g2 ->
  exec c (OpClaimYield g1) s = Ok s1 tt -> exec c (OpClaimYield g2) s1 = Ok s2 tt ->
  exists s1', exec c (OpClaimYield g2) s = Ok s1' tt /\ exec c (OpClaimYield g1) s1' = Ok s2 tt.
Proof.
  intros Hc Hr Hn E1 E2. pose proof (solid_reachable _ _ Hc Hr) as [_ Hb].
  pose proof (reachable_step _ _ _ _ Hr E1) as Hr1. pose proof (solid_reachable _ _ Hc Hr1) as [_ Hb1].
  destruct (claim_does _ _ _ _ Hb E1) as (b1 & (D1 & P1 & B1 & F1 & C1) & ->).
  destruct (claim_does _ _ _ _ Hb1 E2) as (b2 & (D2 & P2 & B2 & F2 & C2) & ->).
  assert (Hbb : AUser b1 <> AUser b2) by congruence.
  destruct (pay_other s (AUser b1) (AUser b2) (claimable s (AUser b1)) Hbb) as (K1 & K2 & K3 & K4 & K5); [done|].
  rewrite K1, K2, K3, K4 in *.
  assert (0 <= claimable s (AUser b1)) by (apply claimable_nonneg').
  assert (0 <= claimable s (AUser b2)) by (apply claimable_nonneg').
  assert (HY : bal (pay s (AUser b1) (claimable s (AUser b1))) YieldA = bal s YieldA - claimable s (AUser b1)).
  { rewrite bal_pay by done. unfold ind. rewrite decide_True by done. rewrite decide_False by done. lia. }
  assert (Hf2 : claim_fits c g2 b2 s).
  { split; [done|]. split; [done|]. split; [done|]. split; [done|]. destruct C2 as [|[C2 ?]]; [by left|right; split; [lia|done]]. }
  exists (pay s (AUser b2) (claimable s (AUser b2))). split; [by apply claim_done|].
  destruct (pay_other s (AUser b2) (AUser b1) (claimable s (AUser b2))) as (L1 & L2 & L3 & L4 & L5); [congruence|done|].
  assert (Er : exec c (OpClaimYield g2) s = Ok (pay s (AUser b2) (claimable s (AUser b2))) tt) by (by apply claim_done).
  pose proof (solid_reachable _ _ Hc (reachable_step _ _ _ _ Hr Er)) as [_ Hb2].
  rewrite (claim_done c g1 b1); [|done|].
  - rewrite L1, pay_pay. done.
  - split; [done|]. split; [congruence|]. split; [done|]. split; [by rewrite L3, L4|]. rewrite L1, L2.
    assert (bal (pay s (AUser b2) (claimable s (AUser b2))) YieldA = bal s YieldA - claimable s (AUser b2)) as ->.
    { rewrite bal_pay by done. unfold ind. rewrite decide_True by done. rewrite decide_False by done. lia. }
    pose proof (Hb1 YieldA). rewrite HY in *. destruct C1 as [|[C1 ?]]; [by left|right; split; [|done]]. destruct C2 as [->|[C2 _]]; lia.
Qed.
Theorem claims_order c l l' : chain_ok c -> l ≡ₚ l' -> forall s s', reachable c s -> NoDup (c_dec c <$> l) ->
  executes c s (OpClaimYield <$> l) s' -> executes c s (OpClaimYield <$> l') s'.
Proof.
  intros Hc. induction 1 as [|g l l' HP IH|g1 g2 l|l l' l'' H1 IH1 H2 IH2]; intros s s' Hr Hn H; [done|..].
  - cbn in *. destruct H as (s1 & E & H). apply NoDup_cons in Hn as [_ Hn]. exists s1. split; [done|]. apply IH; auto. exact (reachable_step _ _ (OpClaimYield g) _ Hr E).
  - cbn in *. destruct H as (s1 & E1 & s2 & E2 & H). apply NoDup_cons in Hn as [Hx _].
    destruct (claims_swap c g2 g1 s s1 s2 Hc Hr) as (s1' & E1' & E2'); [|done..|eauto].
    intros E. apply Hx. rewrite E. apply elem_of_cons. by left.
  - apply IH2; auto. by rewrite <- H1.
Qed.

(** * Claims among transfers *)
(** The accounts whose balance a transfer or a claim touches, other than the yield account. *)
Definition parties (c : config) (o : op) : list addr :=
  match o with
  | OpSend f t _ => [f; t]
  | OpClaimYield g => match c_dec c g with Some a => [a] | None => [] end
  | _ => []
  end.
Definition is_simple (o : op) : Prop := match o with OpSend _ _ _ | OpClaimYield _ => True | _ => False end.
(** Whoever claims is not a party to any other message of the list. *)
Definition apart (c : config) (l : list op) : Prop :=
  forall g l0 o a, l ≡ₚ OpClaimYield g :: l0 -> o ∈ l0 -> a ∈ parties c o -> c_dec c g <> Some a.
(** Everything but the number of holders in the statistics. *)
Definition without_holders (s : state) : state :=
  mk_state (st_bank s) (st_dollar s <| d_stats := mk_dstats 0 (total_principal s) (ds_yield (d_stats (st_dollar s))) |>)
    (st_portal s) (st_vaults s) (st_world s).
Definition moved (f t : addr) (amt : Z) (s : state) : state :=
  mk_state (mk_bank (addz t amt (addz f (- amt) (bk_bal (st_bank s)))) (supply s) (Z.succ (bk_sends (st_bank s))))
    (st_dollar s <| d_principal := addz t (up amt (current_index s)) (addz f (- up amt (current_index s)) (d_principal (st_dollar s))) |>)
    (st_portal s) (st_vaults s) (st_world s).
Definition effect (c : config) (s0 : state) (o : op) (s : state) : state :=
  match o with
  | OpSend f t amt => moved f t amt s
  | OpClaimYield g => match c_dec c g with Some a => pay s a (claimable s0 a) | None => s end
  | _ => s
  end.
Lemma addz4 {K} `{Countable K} (a b d e : K) w x y z (m : gmap K Z) :
  addz a w (addz b x (addz d y (addz e z m))) = addz d y (addz e z (addz a w (addz b x m))).
Proof.
  rewrite (addz_comm b d), (addz_comm a d). f_equal. rewrite (addz_comm b e), (addz_comm a e). done.
Qed.
Lemma moved_moved f t x f' t' y s : moved f t x (moved f' t' y s) = moved f' t' y (moved f t x s).
Proof. destruct s as [b d p v w]. unfold moved, current_index. cbn. destruct d. cbn. rewrite (addz4 t f t' f' x). f_equal. unfold RecordSet.set. cbn. by rewrite (addz4 t f t' f' (up x _)). Qed.
Lemma moved_pay f t x a y s : moved f t x (pay s a y) = pay (moved f t x s) a y.
Proof.
  unfold pay. destruct (0 <? y); [|done]. rewrite !send_from_yield. destruct s as [b d p v w]. unfold moved, current_index. cbn. f_equal. f_equal. apply addz4.
Qed.
Lemma effect_comm c s0 o o' s : effect c s0 o (effect c s0 o' s) = effect c s0 o' (effect c s0 o s).
Proof.
  destruct o, o'; cbn; try done; repeat (destruct (c_dec c _)); try done; auto using moved_moved, moved_pay, pay_pay. all: by rewrite moved_pay.
Qed.
Lemma effects_perm c s0 l l' : l ≡ₚ l' -> forall s, foldl (fun s o => effect c s0 o s) s l = foldl (fun s o => effect c s0 o s) s l'.
Proof.
  induction 1 as [|o l l' HP IH|o1 o2 l|l l' l'' H1 IH1 H2 IH2]; intros s; cbn; auto; [by rewrite effect_comm|by rewrite IH1].
Qed.
Lemma without_send f t amt s : f <> YieldA -> f <> ModuleA -> t <> YieldA -> t <> ModuleA ->
  without_holders (send_result s f t amt) = moved f t amt (without_holders s).
Proof.
  intros. unfold send_result, send_prin, send_tp. rewrite !decide_False by done.
  destruct s as [b d p v w]. destruct d, d_stats. done.
Qed.
Lemma without_pay s a y : without_holders (pay s a y) = pay (without_holders s) a y.
Proof. unfold pay. destruct (0 <? y); [|done]. by rewrite !send_from_yield. Qed.
Lemma apart_cons c o l : apart c (o :: l) -> apart c l.
Proof. intros H g l0 o' a HP Ho. apply (H g (o :: l0)); [rewrite HP; constructor|]. apply elem_of_cons. by right. Qed.
Lemma apart_head c o l g a : apart c (o :: l) -> OpClaimYield g ∈ l -> c_dec c g = Some a -> a ∉ parties c o.
Proof.
  intros H Hg Hd Ha. apply elem_of_list_split in Hg as (l1 & l2 & ->).
  refine (H g (o :: l1 ++ l2) o a _ _ Ha Hd); [|apply elem_of_cons; by left].
  rewrite <- Permutation_middle. constructor.
Qed.
Lemma claimable_moved s f t amt a : f <> YieldA -> f <> ModuleA -> t <> YieldA -> t <> ModuleA -> a <> f -> a <> t ->
  claimable (send_result s f t amt) a = claimable s a.
Proof.
  intros. unfold claimable. rewrite bal_send. unfold ind. rewrite !decide_False by done.
  unfold send_result, send_prin, prin, current_index. cbn. rewrite !decide_False by done. unfold addz. rewrite !lookup_insert_ne by done.
  by replace (bal s a - 0 + 0) with (bal s a) by lia.
Qed.
Lemma simple_effects c s0 l : chain_ok c -> Forall is_simple l -> apart c l -> forall s s', reachable c s ->
  (forall g a, OpClaimYield g ∈ l -> c_dec c g = Some a -> claimable s a = claimable s0 a) ->
  executes c s l s' -> without_holders s' = foldl (fun s o => effect c s0 o s) (without_holders s) l.
Proof.
  intros Hc. induction l as [|o l IH]; intros Hs Ha s s' Hr Hy; [by intros ->|].
  intros (s1 & E & H). apply Forall_cons in Hs as [Ho Hs]. cbn [foldl].
  pose proof (reachable_step _ _ _ _ Hr E) as Hr1. destruct o; cbn in Ho; try done.
  - pose proof (solid_reachable _ _ Hc Hr) as [_ Hb]. destruct (claim_does _ _ _ _ Hb E) as (b & (Hd & _) & ->).
    rewrite (IH Hs (apart_cons _ _ _ Ha) _ _ Hr1); [|..|exact H].
    + cbn. rewrite Hd. rewrite without_pay. by rewrite (Hy signer (AUser b)) by (done || (apply elem_of_cons; by left)).
    + intros g a Hg Hga. pose proof (apart_head _ _ _ _ _ Ha Hg Hga) as Hp. cbn in Hp. rewrite Hd in Hp.
      assert (exists b', a = AUser b') as [b' ->].
      { assert (OpClaimYield g ∈ OpClaimYield signer :: l) as Hg' by (apply elem_of_cons; by right).
        clear - Hg Hga H Hr1 Hc. revert H Hr1. generalize (pay s (AUser b) (claimable s (AUser b))). intros x H Hr1. revert x H Hr1.
        induction l as [|o l IH]; intros x H Hr1; [by apply elem_of_nil in Hg|]. destruct H as (x1 & E & H).
        apply elem_of_cons in Hg as [<-|Hg]; [|by eapply IH; [..|exact (reachable_step _ _ _ _ Hr1 E)]].
        destruct (claim_inv' _ _ _ _ E) as (b' & _ & Hd & _). exists b'. congruence. }
      rewrite (proj1 (pay_other s (AUser b) (AUser b') _ ltac:(intros Heq; apply Hp; rewrite Heq; apply elem_of_cons; by left) ltac:(done))).
      apply (Hy g); [apply elem_of_cons; by right|done].
  - destruct (op_send_inv _ _ _ _ _ _ ltac:(apply Hc) E) as (He & Hamt & T1 & T2 & ->).
    destruct (external_not_module _ He) as (F1 & F2 & _).
    rewrite (IH Hs (apart_cons _ _ _ Ha) _ _ Hr1); [|..|exact H].
    + cbn. by rewrite without_send.
    + intros g a Hg Hga. pose proof (apart_head _ _ _ _ _ Ha Hg Hga) as Hp. cbn in Hp.
      rewrite claimable_moved; try done; [|intros ->; apply Hp; rewrite !elem_of_cons; auto..].
      apply (Hy g); [apply elem_of_cons; by right|done].
Qed.
Theorem simple_order c l l' s s1 s2 : chain_ok c -> reachable c s -> Forall is_simple l -> apart c l -> l ≡ₚ l' ->
  executes c s l s1 -> executes c s l' s2 -> without_holders s1 = without_holders s2.
Proof.
  intros Hc Hr Hs Ha HP H1 H2.
  assert (Ha' : apart c l'). { intros g l0 o a HP'. apply Ha. by rewrite HP. }
  assert (Hs' : Forall is_simple l') by (by rewrite <- HP).
  transitivity (foldl (fun s' o => effect c s o s') (without_holders s) l); [by apply simple_effects|].
  rewrite (effects_perm c s l l' HP). symmetry. by apply simple_effects.
Qed.

(** * Skipping an index *)
Lemma received_user s i b : (v_ended (st_vaults s) = true -> v_collector (st_vaults s) <> AUser b) -> index_received s i (AUser b) = 0.
Proof.
  intros H. unfold index_received. assert (sum_channels s (fun ch => on (AUser b) (AEscrow transfer_port ch) (claim_at s i (AEscrow transfer_port ch))) = 0) as ->.
  { unfold sum_channels. apply (map_fold_ind (fun r _ => r = 0)); [done|]. intros k x m r _ ->. unfold on. case_match; rewrite ?decide_False by done; lia. }
  unfold on. destruct (v_ended (st_vaults s)); rewrite !decide_False by (done || (intros E; by apply H)); lia.
Qed.
Theorem index_skip c s s1 s2 s3 x1 x2 x3 bz1 bz2 bz3 i1 i2 : chain_ok c -> reachable c s ->
  (v_ended (st_vaults s) = true -> bystander (v_collector (st_vaults s))) ->
  carried_index c bz1 = Some i1 -> carried_index c bz2 = Some i2 -> carried_index c bz3 = Some i2 ->
  exec c (OpDeliver x1 bz1) s = Ok s1 tt -> exec c (OpDeliver x2 bz2) s1 = Ok s2 tt -> exec c (OpDeliver x3 bz3) s = Ok s3 tt ->
  current_index s2 = current_index s3 /\ supply s2 = supply s3 /\ total_principal s2 = total_principal s3 /\
  ds_yield (d_stats (st_dollar s2)) = ds_yield (d_stats (st_dollar s3)) /\
  forall b, (v_ended (st_vaults s) = true -> v_collector (st_vaults s) <> AUser b) ->
    bal s2 (AUser b) = bal s3 (AUser b) /\ prin s2 (AUser b) = prin s3 (AUser b) /\ claimable s2 (AUser b) = claimable s3 (AUser b).
Proof.
  intros Hc Hr Hco C1 C2 C3 E1 E2 E3. pose proof (reachable_step _ _ _ _ Hr E1) as Hr1.
  destruct (index_update_applied _ _ _ _ _ _ Hc Hr Hco C1 E1) as (v1 & _ & I1).
  assert (HV : v_ended (st_vaults s1) = v_ended (st_vaults s) /\ v_collector (st_vaults s1) = v_collector (st_vaults s)).
  { by rewrite (ia_vaults _ _ _ _ _ _ I1). }
  destruct HV as [V1 V2].
  destruct (index_update_applied c s1 s2 x2 bz2 i2 Hc Hr1 ltac:(by rewrite V1, V2) C2 E2) as (v2 & _ & I2).
  destruct (index_update_applied _ _ _ _ _ _ Hc Hr Hco C3 E3) as (v3 & _ & I3).
  destruct (ia_index _ _ _ _ _ _ I1) as [_ X1], (ia_index _ _ _ _ _ _ I2) as [_ X2], (ia_index _ _ _ _ _ _ I3) as [_ X3].
  destruct (ia_minted _ _ _ _ _ _ I1) as (_ & M1 & Y1), (ia_minted _ _ _ _ _ _ I2) as (_ & M2 & Y2), (ia_minted _ _ _ _ _ _ I3) as (_ & M3 & Y3).
  pose proof (ia_total _ _ _ _ _ _ I1) as T1. pose proof (ia_total _ _ _ _ _ _ I2) as T2. pose proof (ia_total _ _ _ _ _ _ I3) as T3.
  unfold index_minted in *. rewrite T1 in *.
  split; [congruence|]. split; [lia|]. split; [congruence|]. split; [lia|].
  intros b Hb.
  assert (HB : bal s2 (AUser b) = bal s3 (AUser b)).
  { rewrite (ia_balance _ _ _ _ _ _ I2), (ia_balance _ _ _ _ _ _ I1), (ia_balance _ _ _ _ _ _ I3).
    rewrite !received_user by (rewrite ?V1, ?V2; done). unfold on. rewrite !decide_False by done. lia. }
  assert (HP : prin s2 (AUser b) = prin s3 (AUser b)).
  { destruct (ia_principal _ _ _ _ _ _ I1) as (q1 & P1 & _), (ia_principal _ _ _ _ _ _ I2) as (q2 & P2 & _), (ia_principal _ _ _ _ _ _ I3) as (q3 & P3 & _).
    rewrite P2, P1, P3, V1, V2. unfold on. destruct (v_ended (st_vaults s)); rewrite !decide_False by (done || (intros E; by apply Hb)); lia. }
  split; [done|]. split; [done|]. unfold claimable. by rewrite HB, HP, X2, X3.
Qed.

(** * Claiming now or later *)
Theorem claim_timing c g b s s1 s2 s3 t1 t2 x1 x2 bz1 bz2 i : chain_ok c -> reachable c s -> c_dec c g = Some (AUser b) ->
  (v_ended (st_vaults s) = true -> bystander (v_collector (st_vaults s)) /\ v_collector (st_vaults s) <> AUser b) ->
  carried_index c bz1 = Some i -> carried_index c bz2 = Some i ->
  exec c (OpClaimYield g) s = Ok s1 tt -> exec c (OpDeliver x1 bz1) s1 = Ok s2 tt -> exec c (OpClaimYield g) s2 = Ok s3 tt ->
  exec c (OpDeliver x2 bz2) s = Ok t1 tt -> exec c (OpClaimYield g) t1 = Ok t2 tt ->
  bal s3 (AUser b) <= bal t2 (AUser b) <= bal s3 (AUser b) + 1.
Proof.
  intros Hc Hr Hd Hco C1 C2 E1 E2 E3 E4 E5.
  assert (Hstep : forall x y, reachable c x -> exec c (OpClaimYield g) x = Ok y tt -> y = pay x (AUser b) (claimable x (AUser b))).
  { intros x y Hx E. pose proof (solid_reachable _ _ Hc Hx) as [_ Hb].
    destruct (claim_does _ _ _ _ Hb E) as (b' & (Hd' & _) & ->). by assert (b' = b) as -> by congruence. }
  assert (Hbal : forall x, bal (pay x (AUser b) (claimable x (AUser b))) (AUser b) = bal x (AUser b) + claimable x (AUser b)).
  { intros x. assert (0 <= claimable x (AUser b)) by (apply claimable_nonneg').
    rewrite bal_pay by done. unfold ind. rewrite decide_False by done. rewrite decide_True by done. lia. }
  pose proof (reachable_step _ _ _ _ Hr E1) as R1. pose proof (reachable_step _ _ _ _ R1 E2) as R2. pose proof (reachable_step _ _ _ _ Hr E4) as R4.
  apply Hstep in E1 as ->; [|done]. apply Hstep in E3 as ->; [|done]. apply Hstep in E5 as ->; [|done]. rewrite !Hbal.
  set (u := pay s (AUser b) (claimable s (AUser b))) in *.
  assert (HV : st_vaults u = st_vaults s). { unfold u, pay. destruct (0 <? _); [|done]. by rewrite send_from_yield. }
  assert (HD : st_dollar u = st_dollar s). { unfold u, pay. destruct (0 <? _); [|done]. by rewrite send_from_yield. }
  destruct (index_update_applied c u s2 x1 bz1 i Hc R1 ltac:(rewrite HV; intros Hv; exact (proj1 (Hco Hv))) C1 E2) as (v1 & _ & I1).
  destruct (index_update_applied c s t1 x2 bz2 i Hc Hr ltac:(intros Hv; exact (proj1 (Hco Hv))) C2 E4) as (v2 & _ & I2).
  assert (N1 : bal s2 (AUser b) = bal s (AUser b) + claimable s (AUser b)).
  { rewrite (ia_balance _ _ _ _ _ _ I1), received_user by (rewrite HV; intros Hv; exact (proj2 (Hco Hv))). unfold u. rewrite Hbal. unfold on. rewrite decide_False by done. lia. }
  assert (N2 : bal t1 (AUser b) = bal s (AUser b)).
  { rewrite (ia_balance _ _ _ _ _ _ I2), received_user by (intros Hv; exact (proj2 (Hco Hv))). unfold on. rewrite decide_False by done. lia. }
  assert (HP : forall y, (if v_ended (st_vaults s) then v_collector (st_vaults s) else FlexibleA) = y -> AUser b <> y).
  { intros y <-. destruct (v_ended (st_vaults s)); [|done]. intros E. by destruct (Hco eq_refl) as [_ []]. }
  assert (P1 : prin s2 (AUser b) = prin s (AUser b)).
  { destruct (ia_principal _ _ _ _ _ _ I1) as (q & P & _). rewrite P, HV. unfold on. rewrite !decide_False by (done || by apply HP).
    unfold prin. rewrite HD. lia. }
  assert (P2 : prin t1 (AUser b) = prin s (AUser b)).
  { destruct (ia_principal _ _ _ _ _ _ I2) as (q & P & _). rewrite P. unfold on. rewrite !decide_False by (done || by apply HP). lia. }
  destruct (ia_index _ _ _ _ _ _ I1) as [_ X1], (ia_index _ _ _ _ _ _ I2) as [HI X2].
  pose proof (solid_reachable _ _ Hc Hr) as [_ Hb]. specialize (Hb (AUser b)).
  assert (0 <= claimable s (AUser b)) by (apply claimable_nonneg').
  rewrite (claimable_present s2) by (rewrite N1; lia). rewrite (claimable_present t1) by (rewrite N2; lia).
  rewrite N1, N2, P1, P2, X1, X2. rewrite (claimable_present s) by done. cbn zeta.
  assert (HM : 0 <= prin s (AUser b) -> present (prin s (AUser b)) (current_index s) <= present (prin s (AUser b)) i).
  { intros. unfold present. apply Z.quot_le_mono; [unfold e12; lia|]. apply Z.mul_le_mono_nonneg_l; lia. }
  assert (HN : prin s (AUser b) < 0 -> forall j, 0 <= j -> present (prin s (AUser b)) j <= 0).
  { intros Hp j Hj. unfold present. assert (prin s (AUser b) * j <= 0) by nia. set (w := prin s (AUser b) * j) in *. unfold e12. clearbody w. clear - H0. lia. }
  destruct (winv_reachable _ _ Hc Hr) as [Hw _]. pose proof (wf_index _ _ Hw). destruct (Z.lt_ge_cases (prin s (AUser b)) 0) as [Hneg|Hpos].
  - pose proof (HN Hneg (current_index s)). pose proof (HN Hneg i). repeat case_match; lia.
  - specialize (HM Hpos). repeat case_match; lia.
Qed.

(** * Locks *)
Definition sum_over {A} (f : A -> Z) (l : list A) : Z := foldr (fun e acc => f e + acc) 0 l.
Lemma sum_over_perm {A} (f : A -> Z) l l' : l ≡ₚ l' -> sum_over f l = sum_over f l'.
Proof. unfold sum_over. induction 1; cbn; lia. Qed.
Definition lock_op (e : string * Z * Z) : op := OpLock e.1.1 e.1.2 (Some e.2).
(** What the lock adds to the balance or principal of [a], [q] being the amount or its principal. *)
Definition lock_delta (c : config) (now : Z) (q : Z -> Z) (a : addr) (e : string * Z * Z) : Z :=
  match c_dec c e.1.1 with Some u => on a (vault_account c e.1.2 u now) (q e.2) - on a u (q e.2) | None => 0 end.
Definition lock_made (c : config) (now i : Z) (e : string * Z * Z) (k : addr * Z * Z) (p : position) : Prop :=
  exists u, c_dec c e.1.1 = Some u /\ k = (u, e.1.2, now) /\ p = mk_position (floor_div (e.2 * unit_index) i) i e.2 now.
Definition lock_in (i w : Z) (e : string * Z * Z) : Z := if e.1.2 =? w then floor_div (e.2 * unit_index) i else 0.
Lemma locks_effect c l : chain_ok c -> forall s s', reachable c s -> executes c s (lock_op <$> l) s' ->
  let now := x_now (st_world s) in let i := current_index s in
  (forall a, bal s' a = bal s a + sum_over (lock_delta c now (fun x => x) a) l) /\
  (forall a, prin s' a = prin s a + sum_over (lock_delta c now (fun x => ceil_div (x * unit_index) i) a) l) /\
  (forall k p, positions s' !! k = Some p <-> positions s !! k = Some p \/ exists e, e ∈ l /\ lock_made c now i e k p) /\
  (forall w, a_vault w -> vault_total s' w = vault_total s w + sum_over (lock_in i w) l) /\
  v_total_flex (st_vaults s') = v_total_flex (st_vaults s) + sum_over (lock_in i FLEXIBLE) l /\
  supply s' = supply s /\ total_principal s' = total_principal s /\ current_index s' = i /\ rewards s' = rewards s /\ distributed s' = distributed s /\
  st_portal s' = st_portal s /\ st_world s' = st_world s /\ ds_yield (d_stats (st_dollar s')) = ds_yield (d_stats (st_dollar s)).
Proof.
  intros Hc. induction l as [|[[g v] x] l IH]; intros s s' Hr H; cbn zeta.
  - cbn in H. subst s'. cbn. split; [intros; lia|]. split; [intros; lia|]. split; [|split; [intros; lia|split; [lia|done]]].
    intros k p. split; [by left|]. intros [|(e & He & _)]; [done|]. by apply elem_of_nil in He.
  - destruct H as (s1 & E & H). cbn [lock_op fst snd] in E.
    destruct (lock_effect c s s1 g v (Some x) Hc Hr E) as (b & x' & Hd & Hx & Hv & Ho & Hm & L). cbn zeta in L.
    injection Hx as <-. destruct L as (Hnone & HP & HB & HQ & S1 & I1 & R1 & PT1 & W1).
    destruct (lock_books c s s1 g v x b Hc Hr Hd E) as (VT & VF & TP1 & RW1 & D1 & _ & _ & Y1).
    destruct (IH s1 s' (reachable_step _ _ _ _ Hr E) H) as (B & Q & P & T & F & S2 & TP2 & I2 & RW2 & D2 & PT2 & W2 & Y2). clear IH.
    rewrite W1 in B, Q, P. rewrite I1 in Q, P, T, F, I2. unfold sum_over in *. cbn [foldr].
    split; [|split; [|split; [|split; [|split; [|repeat (split; [congruence|]); congruence]]]]].
    + intros a. rewrite B, HB. unfold lock_delta at 2. cbn [fst snd]. rewrite Hd. lia.
    + intros a. rewrite Q, HQ. unfold lock_delta at 2. cbn [fst snd]. rewrite Hd. lia.
    + intros k p. rewrite P, HP. split.
      * intros [Hk|(e & He & Hk)]; [|right; exists e; split; [by right|done]].
        apply lookup_insert_Some in Hk as [[<- <-]|[_ Hk]]; [right|by left]. exists (g, v, x). split; [by left|]. by exists (AUser b).
      * intros [Hk|(e & He & Hk)].
        -- left. rewrite lookup_insert_ne; [done|]. intros <-. by rewrite Hnone in Hk.
        -- apply elem_of_cons in He as [->|He]; [|right; by exists e]. left.
           destruct Hk as (u & Hu & -> & ->). cbn [fst snd] in *. assert (u = AUser b) as -> by congruence. by rewrite lookup_insert.
    + intros w Hw. rewrite T, VT by done. unfold lock_in at 2. cbn [fst snd]. lia.
    + rewrite F, VF. unfold lock_in at 2. cbn [fst snd]. lia.
Qed.
Theorem locks_order c s s1 s2 l l' : chain_ok c -> reachable c s -> l ≡ₚ l' ->
  executes c s (lock_op <$> l) s1 -> executes c s (lock_op <$> l') s2 ->
  (forall a, bal s1 a = bal s2 a) /\ (forall a, prin s1 a = prin s2 a) /\ positions s1 = positions s2 /\
  (forall w, a_vault w -> vault_total s1 w = vault_total s2 w /\ vault_users s1 w = vault_users s2 w) /\
  v_total_flex (st_vaults s1) = v_total_flex (st_vaults s2) /\
  supply s1 = supply s2 /\ total_principal s1 = total_principal s2 /\ current_index s1 = current_index s2 /\ rewards s1 = rewards s2 /\
  distributed s1 = distributed s2 /\ st_portal s1 = st_portal s2 /\ st_world s1 = st_world s2.
Proof.
  intros Hc Hr HP H1 H2.
  destruct (locks_effect c l Hc s s1 Hr H1) as (B & Q & P & T & F & S2 & TP2 & I2 & RW2 & D2 & PT2 & W2 & Y2).
  destruct (locks_effect c l' Hc s s2 Hr H2) as (B' & Q' & P' & T' & F' & S2' & TP2' & I2' & RW2' & D2' & PT2' & W2' & Y2').
  assert (HPos : positions s1 = positions s2).
  { apply map_eq. intros k. apply option_eq. intros p. rewrite P, P'. by setoid_rewrite HP. }
  split; [intros a; by rewrite B, B', (sum_over_perm _ _ _ HP)|]. split; [intros a; by rewrite Q, Q', (sum_over_perm _ _ _ HP)|].
  split; [done|]. split; [|split; [by rewrite F, F', (sum_over_perm _ _ _ HP)|repeat (split; [congruence|]); congruence]].
  intros w Hw. split; [by rewrite T, T', (sum_over_perm _ _ _ HP) by done|].
  rewrite !(users_counted c) by (done || (eapply executes_reachable; done)). unfold stakers. by rewrite HPos.
Qed.
