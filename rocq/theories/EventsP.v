(** The version with events does what the model does, and the events say it. *)
From Verif Require Export Events Spec SeasonP StakeP.

(** * Erasure *)
Definition rmap {A B} (f : A -> B) (r : res A) : res B :=
  match r with Ok s a => Ok s (f a) | Err s e => Err s e | Panic => Panic end.
Definition erases {A B} (f : B -> A) (m' : M B) (m : M A) : Prop := forall s, rmap f (m' s) = m s.
Definition drop {A} (_ : A) : unit := tt.

Lemma er_bind {A B C D} (g : B -> A) (f : D -> C) (m' : M B) (m : M A) k' k :
  erases g m' m -> (forall b, erases f (k' b) (k (g b))) -> erases f (bind m' k') (bind m k).
Proof.
  intros H Hk s. specialize (H s). unfold bind. rewrite <- H. destruct (m' s); cbn; try done. apply Hk.
Qed.
Lemma er_same {A C D} (f : D -> C) (m : M A) k' k :
  (forall a, erases f (k' a) (k a)) -> erases f (bind m k') (bind m k).
Proof. intros Hk s. unfold bind. destruct (m s); cbn; try done. apply Hk. Qed.
Lemma er_ret {A B} (f : B -> A) b a : f b = a -> erases f (ret b) (ret a).
Proof. intros <- s. done. Qed.
Lemma er_end {B} (m : M unit) (b : B) : erases drop (m;;; ret b) m.
Proof. intros s. unfold bind, ret. by destruct (m s) as [? []| |]. Qed.
Lemma er_refl {A} (m : M A) : erases (fun a => a) m m.
Proof. intros s. by destruct (m s). Qed.
Lemma er_fail {A B} (f : B -> A) e : erases f (fail e) (fail e).
Proof. done. Qed.
Lemma er_panic {A B} (f : B -> A) : erases f panic panic.
Proof. done. Qed.
Lemma er_attempt {C D} (f : D -> C) m' (m : M unit) k' k :
  erases drop m' m -> (forall evs b, erases f (k' evs) (k b)) -> erases f (bind (attempt m') k') (bind (try m) k).
Proof.
  intros H Hk s. specialize (H s). unfold bind, attempt, try. destruct (m' s), (m s); cbn in *; try discriminate; try done.
  - injection H as -> _. apply Hk.
  - injection H as -> _. apply Hk.
Qed.
Ltac er := repeat first
  [ apply er_fail | apply er_panic | apply er_end | apply er_refl
  | apply er_same; intros ?
  | apply er_ret; reflexivity
  | match goal with |- erases _ (if ?b then _ else _) _ => destruct b end
  | match goal with |- erases _ (match ?b with _ => _ end) _ => destruct b end ].

Lemma claim_yield_er c g : erases drop (claim_yield_ev c g) (claim_yield c g).
Proof. unfold claim_yield_ev, claim_yield. er. Qed.
Lemma accrue_er i : erases drop (accrue_yield_ev i) (accrue_yield i).
Proof. unfold accrue_yield_ev, accrue_yield. er. Qed.
Lemma update_er c x i : erases drop (update_index_ev c x i) (update_index c x i).
Proof.
  unfold update_index_ev, update_index. apply er_same. intros old. destruct (i <=? old); [apply er_fail|].
  apply (er_bind drop); [apply accrue_er|]. intros ty. er.
Qed.
Lemma mint_er c x to amount i : erases drop (mint_ev c x to amount i) (mint c x to amount i).
Proof. unfold mint_ev, mint. apply er_attempt; [apply update_er|]. intros evs b. er. Qed.
Lemma lock_er c g v amount : erases drop (lock_ev c g v amount) (lock c g v amount).
Proof. unfold lock_ev, lock. er. Qed.
Lemma claim_rewards_er c a p amount : erases fst (claim_rewards_ev c a p amount) (claim_rewards a p amount).
Proof. unfold claim_rewards_ev, claim_rewards. er. Qed.
Lemma unlock_loop_er c g a v l : forall rem removed, erases fst (unlock_loop_ev c g a v l rem removed) (unlock_loop c g a v l rem removed).
Proof.
  induction l as [|p l IH]; intros rem removed; cbn [unlock_loop_ev unlock_loop]; [er|].
  destruct (rem =? 0); [er|]. cbv zeta. apply er_same. intros pp. apply (er_bind fst).
  - destruct (v =? FLEXIBLE); [|er]. do 3 (apply er_same; intros ?). apply (er_bind fst); [apply claim_rewards_er|]. intros rw.
    do 2 (apply er_same; intros ?). intros s. unfold bind, ret. destruct (0 <? _); cbn; [|done].
    unfold lift. by destruct (int_add _ _).
  - intros sent. do 5 (apply er_same; intros ?).
    intros s. specialize (IH a4 a3 s). unfold bind, ret. rewrite <- IH. by destruct (unlock_loop_ev _ _ _ _ _ _ _ s).
Qed.
Lemma unlock_er c g v amount : erases drop (unlock_ev c g v amount) (unlock c g v amount).
Proof.
  unfold unlock_ev, unlock, unlock_internal. apply er_same. intros ended. destruct (_ && ended); [er|].
  apply er_same. intros paused. destruct (_ || _); [er|]. destruct (c_dec c g) as [a|]; [|er]. destruct amount as [amount|]; [|er].
  destruct (negb (0 <? amount)); [er|]. destruct (negb (vault_exists v)); [er|]. do 2 (apply er_same; intros ?).
  destruct (_ <? _); [er|]. destruct (_ && _); [er|]. apply (er_bind fst); [apply unlock_loop_er|]. intros rr. er.
Qed.
Lemma handle_er c x ch sender id pl : erases drop (handle_payload_ev c x ch sender id pl) (handle_payload c x pl).
Proof.
  unfold handle_payload_ev, handle_payload. apply er_same. intros [].
  - er.
  - apply er_same. intros t. destruct (negb _); [er|]. destruct (negb _); [er|].
    intros s. rewrite <- (mint_er c x _ _ _ s). unfold bind, ret. by destruct (mint_ev _ _ _ _ _ s).
  - apply er_same. intros d. destruct (negb _); [er|]. apply update_er.
Qed.
Lemma deliver_er c x bz : erases drop (deliver_ev c x bz) (deliver c x bz).
Proof.
  unfold deliver_ev, deliver. apply er_same. intros paused. destruct paused; [er|]. apply er_same. intros v. apply er_same. intros pr.
  destruct pr as [pr|]; [|er]. destruct (negb _); [er|]. apply er_same. intros t. destruct (negb _); [er|]. destruct (negb _); [er|].
  apply er_same. intros m s. rewrite <- (handle_er c x (va_chain v) (sl_bytes (mp_sender m))
    (message_id c (va_chain v) (mk_mm (sl_bytes (mp_id m)) (sl_bytes (mp_sender m)) (sl_bytes (mp_payload m)))) (mp_payload m) s).
  unfold bind, ret. by destruct (handle_payload_ev _ _ _ _ _ _ s).
Qed.
Lemma transfer_er c ps g ch tok rc amount : erases drop (transfer_ev c ps g ch tok rc amount) (transfer c ps g ch tok rc amount).
Proof. unfold transfer_ev, transfer. er. Qed.
Lemma set_peer_er c g ch t m : erases drop (set_peer_ev c g ch t m) (set_peer c g ch t m).
Proof. intros s. unfold set_peer_ev, gets, bind, ret. by destruct (set_peer c g ch t m s) as [? []| |]. Qed.
Lemma signed_er c g m' m : erases drop m' m -> erases drop (signed_ev c g m') (signed c g m).
Proof. intros H. unfold signed_ev, signed. destruct (c_dec c g) as [[]|]; auto; er. Qed.

Lemma exec_ev_erase c o : erases drop (exec_ev c o) (exec c o).
Proof.
  destruct o; cbn [exec_ev]; try apply er_end; cbn [exec].
  - apply signed_er, claim_yield_er.
  - apply signed_er, lock_er.
  - apply signed_er, unlock_er.
  - apply deliver_er.
  - apply signed_er, transfer_er.
  - apply set_peer_er.
Qed.
Lemma exec_ev_ok c o s s' evs : exec_ev c o s = Ok s' evs -> exec c o s = Ok s' tt.
Proof. intros H. rewrite <- exec_ev_erase, H. done. Qed.

(** * The messages *)
Lemma ret_ok {A} (a b : A) s s' : ret a s = Ok s' b -> s' = s /\ b = a.
Proof. intros H. by injection H as -> ->. Qed.
Lemma gets_ok {A} (f : state -> A) s s' b : gets f s = Ok s' b -> s' = s /\ b = f s.
Proof. intros H. by injection H as -> ->. Qed.
Lemma modify_ok f s s' b : modify f s = Ok s' b -> s' = f s.
Proof. intros H. by injection H as ->. Qed.
Lemma signed_ev_ok c g m s s' evs : signed_ev c g m s = Ok s' evs ->
  m s = Ok s' evs /\ ((exists b, c_dec c g = Some (AUser b)) \/ c_dec c g = None).
Proof. unfold signed_ev. destruct (c_dec c g) as [[]|]; try discriminate; eauto. Qed.
Lemma new_coins_ok amt s s' z : new_coins amt s = Ok s' z -> s' = s /\ z = amt /\ 0 <= amt.
Proof. unfold new_coins. destruct (Z.ltb_spec amt 0); [discriminate|]. intros [-> ->]%ret_ok. auto. Qed.
(** Take one step of a successful run. *)
Ltac ck1 H := let E := fresh "E" in let x := fresh "x" in
  match type of H with
  | bind (gets ?f) _ ?s = Ok _ _ => change (gets f s) with (Ok s (f s)) in H; unfold bind at 1, gets at 1 in H; cbv beta iota in H
  | bind get_index _ ?s = Ok _ _ => unfold bind at 1, get_index at 1, gets at 1 in H; cbv beta iota in H
  | bind (get_principal _) _ ?s = Ok _ _ => unfold bind at 1, get_principal at 1, gets at 1 in H; cbv beta iota in H
  | bind (lift _) _ _ = Ok _ _ => apply bind_ok in H as (? & x & E & H); apply lift_ok in E as [E ->]
  | bind (modify _) _ _ = Ok _ _ => unfold bind at 1, modify at 1 in H; cbv beta iota in H
  | bind (new_coins _) _ _ = Ok _ _ => apply bind_ok in H as (? & x & E & H); apply new_coins_ok in E as (-> & -> & E)
  | bind _ _ _ = Ok _ _ => apply bind_ok in H as (? & x & E & H)
  | ret _ _ = Ok _ _ => apply ret_ok in H as [? ?]
  | fail _ _ = Ok _ _ => discriminate H
  | panic _ = Ok _ _ => discriminate H
  | (if ?b then _ else _) _ = Ok _ _ => destruct b eqn:E
  | (match ?b with _ => _ end) _ = Ok _ _ => destruct b eqn:E
  end; try discriminate H.

Lemma send_plain_ok f t amt s s' : 0 <= amt -> f <> ModuleA -> t <> ModuleA -> t <> YieldA ->
  send_coins f t amt s = Ok s' tt -> s' = xfer s f t amt.
Proof. intros. revert H3. apply (wp_ok _ _ (fun s' _ => s' = xfer s f t amt) top2). by apply send_plain_spec. Qed.
Lemma bal_xfer s f t amt a : 0 <= amt -> bal (xfer s f t amt) a = bal s a - ind (a = f) amt + ind (a = t) amt.
Proof. intros. unfold xfer. destruct (Z.ltb_spec 0 amt); [apply bal_send|]. unfold ind. repeat case_decide; lia. Qed.
Lemma vstats_xfer s f t amt : st_vaults (xfer s f t amt) = st_vaults s.
Proof. unfold xfer. by destruct (0 <? amt). Qed.
Lemma vstats_pay s a y : st_vaults (pay s a y) = st_vaults s.
Proof. unfold pay. by destruct (0 <? y). Qed.

(** Claims. *)
Lemma claim_event c g s s' evs : exec_ev c (OpClaimYield g) s = Ok s' evs ->
  exists b y, c_dec c g = Some (AUser b) /\ evs = [EvYieldClaimed g y] /\ 0 <= y /\
    bal s' (AUser b) = bal s (AUser b) + y /\ bal s' YieldA = bal s YieldA - y.
Proof.
  intros H0. pose proof (exec_ev_ok _ _ _ _ _ H0) as H1. destruct (claim_inv' _ _ _ _ H1) as (b & y & Hd & Hp & Hbl & Hy & Hyb & ->).
  pose proof (yield_of_nonneg s (AUser b)) as Hn. rewrite <- Hy in Hn.
  exists b, y. split; [done|]. split; [|split; [done|]].
  - cbn in H0. apply signed_ev_ok in H0 as [H _]. unfold claim_yield_ev in H. ck1 H. ck1 H.
    unfold get_yield in H. rewrite Hd in H. ck1 H. ck1 E0.
    assert (Hq : x1 = yield_of s (AUser b) /\ x2 = s).
    { revert E1. apply (wp_ok _ _ (fun s' z => z = yield_of s (AUser b) /\ s' = s) top2). apply get_yield_of_spec. auto. }
    destruct Hq as [-> ->]. apply ret_ok in E0 as [-> ->]. cbn [fst snd] in H. repeat ck1 H. by rewrite <- Hy in *.
  - rewrite !bal_pay by done. unfold ind. rewrite decide_False by done. rewrite !decide_True by done. rewrite decide_False by done. lia.
Qed.

(** Locks. *)
Lemma lock_event c g v amount s s' evs : chain_ok c -> exec_ev c (OpLock g v amount) s = Ok s' evs ->
  exists b amt q, c_dec c g = Some (AUser b) /\ amount = Some amt /\
    evs = [EvPositionLocked g v (current_index s) amt q] /\
    v_positions (st_vaults s') !! (AUser b, v, x_now (st_world s)) = Some (mk_position q (current_index s) amt (x_now (st_world s))) /\
    vault_principal s' v = vault_principal s v + q /\ bal s' (AUser b) = bal s (AUser b) - amt /\
    (forall w, w <> v -> vault_principal s' w = vault_principal s w) /\ distributed s' = distributed s.
Proof.
  intros Hc H0. pose proof (exec_ev_ok _ _ _ _ _ H0) as H1.
  destruct (lock_inv' _ _ _ _ _ _ Hc H1) as (b & amt & Hd & -> & Hf & _ & _ & Hamt & Hv & Hfr & ->).
  pose proof (ok_min_lock c Hc) as Hml. destruct (position_account_not g v (x_now (st_world s))) as (P1 & P2 & _ & _).
  exists b, amt, (down amt (current_index s)). split; [done|]. split; [done|]. split.
  - cbn in H0. apply signed_ev_ok in H0 as [H _]. unfold lock_ev in H. do 4 ck1 H. rewrite Hd in H. do 8 ck1 H.
    apply bind_ok in H as (s1 & [] & E6 & H). apply send_plain_ok in E6; [|done..]. subst s1. do 2 ck1 H.
    apply principal_down_ok in E6 as [_ ->].
    repeat ck1 H. subst evs. unfold xfer. by destruct (0 <? amt).
  - repeat split.
    + unfold lock_result, with_stats, lock_state, add_flex, put_pos. cbn. destruct (v =? FLEXIBLE); cbn; by rewrite lookup_insert.
    + unfold vault_principal, lock_result, with_stats, lock_state, add_flex, put_pos, vprin_add, users_up. cbn.
      destruct Hv as [-> | ->]; cbn; by destruct (Nat.eqb _ _).
    + unfold lock_result, with_stats, lock_state, add_flex, put_pos. cbn.
      transitivity (bal (send_result s (AUser b) (position_account g v (x_now (st_world s))) amt) (AUser b)).
      { by destruct (v =? FLEXIBLE). }
      rewrite bal_send. unfold ind. rewrite decide_True by done. rewrite decide_False; [lia|].
      unfold position_account. discriminate.
    + intros w Hw. unfold vault_principal, lock_result, with_stats, lock_state, add_flex, put_pos, vprin_add, users_up. cbn.
      destruct (Z.eqb_spec w STAKED) as [->|]; [|destruct (Z.eqb_spec w FLEXIBLE) as [->|]; [|done]];
        destruct Hv as [-> | ->]; cbn; try done; by destruct (Nat.eqb _ _).
    + unfold distributed, lock_result, with_stats, lock_state, add_flex, put_pos, vprin_add, users_up. cbn.
      destruct Hv as [-> | ->]; cbn; by destruct (Nat.eqb _ _).
Qed.

(** Unlocks. *)
Lemma log_sum_nil f : log_sum f [] = 0.
Proof. done. Qed.
Lemma log_sum_cons f e l : log_sum f (e :: l) = f e + log_sum f l.
Proof. done. Qed.
Lemma log_sum_app f l1 l2 : log_sum f (l1 ++ l2) = log_sum f l1 + log_sum f l2.
Proof. induction l1 as [|e l1 IH]; [done|]. cbn [app]. rewrite !log_sum_cons, IH. lia. Qed.
Lemma log_sum_zero f l : Forall (fun e => f e = 0) l -> log_sum f l = 0.
Proof. induction 1 as [|e l He _ IH]; [done|]. by rewrite log_sum_cons, IH, He. Qed.
(** Events of an unlock by [g], whose address is written [enc], in vault [v]. *)
Definition unlock_event (g enc : string) (v : Z) (e : event) : Prop :=
  match e with
  | EvPositionUnlocked g' v' _ x _ => g' = g /\ v' = v /\ 0 < x
  | EvRewardClaimed g' x => g' = enc /\ v = FLEXIBLE /\ 0 <= x
  | _ => False
  end.
Lemma claim_rewards_event c b p part s s' r evs : claim_rewards_ev c (AUser b) p part s = Ok s' (r, evs) ->
  0 <= r /\ bal s' (AUser b) = bal s (AUser b) + r /\ v_stats (st_vaults s') = v_stats (st_vaults s) /\
  (evs = [] /\ r = 0 \/ evs = [EvRewardClaimed (c_enc c (AUser b)) r]).
Proof.
  intros H. assert (HC : claim_rewards (AUser b) p part s = Ok s' r).
  { rewrite <- (claim_rewards_er c), H. done. }
  assert (HS : 0 <= r /\ bal s' (AUser b) = bal s (AUser b) + r /\ v_stats (st_vaults s') = v_stats (st_vaults s)).
  { revert HC. apply (wp_ok _ _ (fun s' r => 0 <= r /\ bal s' (AUser b) = bal s (AUser b) + r /\ v_stats (st_vaults s') = v_stats (st_vaults s)) top2).
    apply claim_rewards_spec; [done|done| |].
    - intros _. split; [lia|]. split; [lia|done].
    - cbn zeta. intros _ Hn _. split; [done|]. unfold rewarded. rewrite bal_xfer by done. rewrite vstats_xfer. split; [|done].
      unfold ind. rewrite decide_False by done. rewrite decide_True by done. unfold bal. cbn. lia. }
  destruct HS as (H1 & H2 & H3). do 3 (split; [done|]).
  unfold claim_rewards_ev in H. ck1 H. ck1 H.
  - apply ret_ok in H as [_ H]. injection H as -> ->. auto.
  - repeat ck1 H. simplify_eq. auto.
Qed.
Lemma unlock_loop_event c g b v l : forall rem removed s s' rem' removed' evs,
  Forall (fun p => 0 < pos_amount p) l -> 0 <= rem ->
  unlock_loop_ev c g (AUser b) v l rem removed s = Ok s' (rem', removed', evs) ->
  Forall (unlock_event g (c_enc c (AUser b)) v) evs /\
  removed' = removed - log_sum (principal_in v) evs /\
  bal s' (AUser b) = bal s (AUser b) + log_sum ev_paid evs /\
  distributed s' = distributed s + log_sum ev_reward evs /\
  (forall w, vault_principal s' w = vault_principal s w) /\
  (v <> FLEXIBLE -> rem' = rem - log_sum ev_paid evs /\ log_sum ev_reward evs = 0).
Proof.
  induction l as [|p l IH]; intros rem removed s s' rem' removed' evs Hpos Hrem; cbn [unlock_loop_ev].
  { intros [-> H]%ret_ok. injection H as -> -> ->. rewrite !log_sum_nil. repeat split; auto; lia. }
  destruct (Z.eqb_spec rem 0) as [->|Hne].
  { intros [-> H]%ret_ok. injection H as -> -> ->. rewrite !log_sum_nil. repeat split; auto; lia. }
  apply Forall_cons in Hpos as [Hpa Hpos]. cbv zeta.
  fold (part_of p rem). set (part := part_of p rem).
  assert (Hpart : 0 < part <= rem).
  { subst part. unfold part_of. destruct (Z.ltb_spec rem (pos_amount p)); lia. }
  set (pa := position_account g v (pos_time p)).
  assert (HP : pa <> ModuleA /\ pa <> YieldA /\ pa <> AUser b).
  { subst pa. destruct (position_account_not g v (pos_time p)) as (P1 & P2 & _ & _). repeat split; auto; unfold position_account; discriminate. }
  clearbody pa. destruct HP as (P1 & P2 & P3).
  intros H. apply bind_ok in H as (? & pp & Epp & H). apply lift_ok in Epp as [Epp ->].
  apply bind_ok in H as (s2 & [z evr] & Es & H). cbn [fst snd] in H.
  (* what the rewards and the yield of the position did *)
  assert (H2 : part <= z /\ bal s2 (AUser b) = bal s (AUser b) + log_sum ev_reward evr /\
    distributed s2 = distributed s + log_sum ev_reward evr /\ (forall w, vault_principal s2 w = vault_principal s w) /\
    log_sum ev_paid evr = log_sum ev_reward evr /\ log_sum (principal_in v) evr = 0 /\
    Forall (unlock_event g (c_enc c (AUser b)) v) evr /\
    (v <> FLEXIBLE -> z = part /\ log_sum ev_reward evr = 0)).
  { destruct (Z.eqb_spec v FLEXIBLE) as [Hv|Hv].
    - do 3 ck1 Es. apply bind_ok in Es as (s3 & [r evs3] & Er & Es). apply claim_rewards_event in Er as (R1 & R2 & R3 & R4). cbn [fst snd] in Es.
      apply bind_ok in Es as (s4 & [] & Ed & Es). unfold increment_distributed in Ed. do 2 ck1 Ed. apply int_add_ok in E0. apply modify_ok in Ed. subst x0 s4.
      apply bind_ok in Es as (s5 & y & Ey & Es).
      assert (HY : 0 <= y /\ s5 = pay (s3 <| st_vaults; v_stats; vs_flex_distributed := vs_flex_distributed (v_stats (st_vaults s3)) + r |>) pa y).
      { revert Ey. apply (wp_ok _ _ (fun s5 y => 0 <= y /\ s5 = pay (s3 <| st_vaults; v_stats; vs_flex_distributed := vs_flex_distributed (v_stats (st_vaults s3)) + r |>) pa y) top2).
        apply claim_module_fits. intros _ _. split; [apply yield_of_nonneg|done]. }
      destruct HY as (HY0 & HY1).
      apply bind_ok in Es as (s6 & z' & Ez & Es). apply ret_ok in Es as [-> Es]. injection Es as -> ->.
      assert (HZ : part <= z' /\ s6 = s5).
      { destruct (Z.ltb_spec 0 y).
        - apply lift_ok in Ez as [Ez ->]. apply int_add_ok in Ez. split; [lia|done].
        - apply ret_ok in Ez as [-> ->]. split; [lia|done]. }
      destruct HZ as [HZ ->].
      assert (HB : bal s5 (AUser b) = bal s (AUser b) + r).
      { rewrite HY1, bal_pay by done. unfold ind. rewrite decide_False by done. rewrite decide_False by done.
        transitivity (bal s3 (AUser b)); [unfold bal; cbn; lia|]. rewrite R2. unfold bal. cbn. lia. }
      assert (HD : distributed s5 = distributed s + r).
      { unfold distributed. rewrite HY1, vstats_pay. cbn. rewrite R3. done. }
      assert (HV : forall w, vault_principal s5 w = vault_principal s w).
      { intros w. unfold vault_principal. rewrite HY1, vstats_pay. cbn. rewrite R3. done. }
      destruct R4 as [[-> ->] | ->].
      + rewrite !log_sum_nil. repeat split; auto; done.
      + rewrite !log_sum_cons, !log_sum_nil. cbn [ev_reward ev_paid principal_in]. rewrite Z.add_0_r. repeat split; auto; try done.
        apply Forall_singleton. by split.
    - apply ret_ok in Es as [-> Es]. injection Es as -> ->. rewrite !log_sum_nil. repeat split; auto; lia. }
  destruct H2 as (Z1 & Z2 & Z3 & Z4 & Z5 & Z6 & Z7 & Z8).
  ck1 H. apply bind_ok in H as (s3 & [] & Esend & H). apply send_plain_ok in Esend; [|done..].
  apply bind_ok in H as (s4 & [] & Epos & H).
  assert (H4 : (forall a, bal s4 a = bal s3 a) /\ v_stats (st_vaults s4) = v_stats (st_vaults s3)).
  { destruct (pos_amount p <=? part); [unfold remove_position in Epos; apply modify_ok in Epos; by subst s4|].
    do 2 ck1 Epos. unfold set_position in Epos. apply modify_ok in Epos. by subst s4. }
  destruct H4 as [B4 V4]. do 2 ck1 H. apply int_add_ok in E0. apply int_sub_ok in E1. subst x x0.
  apply bind_ok in H as (s5 & [[rem2 removed2] evs2] & Hl & H). cbn [fst snd] in H. apply ret_ok in H as [-> H]. injection H as -> -> ->.
  apply IH in Hl as (I1 & I2 & I3 & I4 & I5 & I6); [|done|lia].
  rewrite !log_sum_app, !log_sum_cons. cbn [principal_in ev_paid ev_reward]. rewrite Z.eqb_refl.
  split; [apply Forall_app; split; [done|]; apply Forall_cons; split; [|done]; cbn; repeat split; lia|].
  split; [lia|]. split; [|split; [|split]].
  - rewrite I3, B4, Esend, bal_xfer by lia. unfold ind. rewrite decide_False by done. rewrite decide_True by done. lia.
  - rewrite I4. unfold distributed in *. rewrite V4, Esend, vstats_xfer. lia.
  - intros w. rewrite I5. rewrite <- Z4. unfold vault_principal. by rewrite V4, Esend, vstats_xfer.
  - intros Hv. destruct (Z8 Hv) as [-> ->]. destruct (I6 Hv) as [-> ->]. lia.
Qed.
Lemma unlock_events c g v amount s s' evs : chain_ok c -> winv c s -> exec_ev c (OpUnlock g v amount) s = Ok s' evs ->
  exists b amt, c_dec c g = Some (AUser b) /\ amount = Some amt /\
    Forall (unlock_event g (c_enc c (AUser b)) v) evs /\
    bal s' (AUser b) = bal s (AUser b) + log_sum ev_paid evs /\
    distributed s' = distributed s + log_sum ev_reward evs /\
    (forall w, vault_principal s' w = vault_principal s w + log_sum (principal_in w) evs) /\
    (v = STAKED -> log_sum ev_paid evs = amt /\ log_sum ev_reward evs = 0).
Proof.
  intros Hc [Hw Hp] H0. pose proof (exec_ev_ok _ _ _ _ _ H0) as H1.
  destruct (unlock_inv' _ _ _ _ _ _ Hp H1) as (b & amt & _ & _ & Hd & -> & _ & _ & _ & Hv & Hamt & _ & _ & _).
  exists b, amt. split; [done|]. split; [done|].
  cbn in H0. apply signed_ev_ok in H0 as [H _]. unfold unlock_ev in H. do 4 ck1 H. rewrite Hd in H. do 6 ck1 H.
  apply bind_ok in H as (s1 & [[rem' removed'] evs'] & Hl & H). cbn [fst snd] in H.
  destruct (Z.eqb_spec rem' 0) as [->|]; [cbn [negb] in H|discriminate].
  apply unlock_loop_event in Hl as (I1 & I2 & I3 & I4 & I5 & I6); [|by apply (pos_wf_positive _ _ _ Hp)|lia].
  ck1 H. apply bind_ok in H as (s2 & [] & Eu & H). apply bind_ok in H as (s3 & [] & Ep & H). apply ret_ok in H as [-> ->].
  assert (HU : st_bank s2 = st_bank s1 /\ (forall w, vault_principal s2 w = vault_principal s1 w) /\ distributed s2 = distributed s1).
  { unfold whenb in Eu. destruct (Nat.eqb _ _).
    - unfold decrement_vault_users in Eu. apply modify_ok in Eu. subst s2. unfold vault_principal, distributed. cbn.
      destruct Hv as [-> | ->]; done.
    - apply ret_ok in Eu as [-> _]. done. }
  destruct HU as (U1 & U2 & U3). unfold decrement_vault_principal in Ep. ck1 Ep.
  apply bind_ok in Ep as (? & z & Ez & Ep). apply lift_ok in Ez as [Ez ->]. unfold set_vault_principal in Ep. apply modify_ok in Ep.
  apply int_sub_ok in Ez. rewrite U2, I5 in Ez.
  assert (HW : forall w, w <> v -> log_sum (principal_in w) evs' = 0).
  { intros w Hwv. clear - I1 Hwv. induction I1 as [|e l He _ IH]; [done|]. rewrite log_sum_cons, IH. destruct e; cbn in *; try done.
    destruct He as (_ & -> & _). destruct (Z.eqb_spec v w); [congruence|done]. }
  split; [done|]. split; [|split; [|split]].
  - rewrite <- I3. unfold bal. subst s3. cbn. by rewrite U1.
  - rewrite <- I4, <- U3. unfold distributed. subst s3. cbn. destruct Hv as [-> | ->]; done.
  - intros w. destruct (decide (w = v)) as [->|Hwv].
    + transitivity z; [|lia]. unfold vault_principal. subst s3. cbn. destruct Hv as [-> | ->]; done.
    + rewrite HW by done. rewrite Z.add_0_r, <- I5, <- U2. unfold vault_principal. subst s3. cbn.
      destruct (Z.eqb_spec w STAKED) as [->|]; [|destruct (Z.eqb_spec w FLEXIBLE) as [->|]; [|done]]; destruct Hv as [-> | ->]; done.
  - intros ->. destruct I6 as [I6 I7]; [done|]. split; [lia|done].
Qed.

(** * Deliveries *)
Lemma accrue_event i s s' tp y : accrue_yield_ev i s = Ok s' (tp, y) ->
  tp = total_principal s /\ y = present (total_principal s) i - supply s /\ 0 <= y.
Proof.
  intros H. unfold accrue_yield_ev, get_total_principal in H.
  apply bind_ok in H as (s1 & [] & E1 & H). apply modify_ok in E1.
  ck1 H. ck1 H. apply bind_ok in H as (? & ex & Ee & H). apply lift_ok in Ee as [Ee ->]. apply present_amount_ok in Ee.
  apply bind_ok in H as (? & d & Ed & H). apply lift_ok in Ed as [Ed ->]. apply int_sub_ok in Ed.
  apply bind_ok in H as (? & amt & Ea & H). apply new_coins_ok in Ea as (-> & -> & Ha).
  apply bind_ok in H as (s2 & [] & _ & H). apply ret_ok in H as [_ H]. injection H as -> ->.
  change (total_principal s1) with (total_principal s1) in *. subst s1.
  change (total_principal (s <| st_dollar; d_index := i |>)) with (total_principal s) in *.
  change (supply (s <| st_dollar; d_index := i |>)) with (supply s) in *.
  split; [done|]. subst ex. rewrite Ed in *. destruct (Z.ltb_spec 0 (present (total_principal s) i - supply s)); split; lia.
Qed.
Definition total_yield (s : state) : Z := ds_yield (d_stats (st_dollar s)).
Lemma update_event c x i s s' evs : 0 <= bal s ModuleA -> good_collector s -> update_index_ev c x i s = Ok s' evs ->
  exists y, evs = [EvIndexUpdated (current_index s) i (total_principal s) y] /\ 0 <= y /\
    current_index s' = i /\ supply s' = supply s + y /\ total_yield s' = total_yield s + y.
Proof.
  intros Hb Hg H. assert (HU : update_index c x i s = Ok s' tt) by (by rewrite <- update_er, H).
  apply update_index_inv in HU as (Hi & n & Hn & Hn0 & HU); [|done..].
  exists n. unfold update_index_ev in H. ck1 H. ck1 H.
  apply bind_ok in H as (s1 & [tp y] & Ea & H). apply accrue_event in Ea as (-> & -> & Hy). rewrite <- Hn in H.
  repeat ck1 H. split; [done|]. split; [done|].
  assert (Hg1 : good_collector (accrued s i n n)).
  { unfold good_collector. by destruct (frame_accrued s i n n) as (_&_&_&_&_&_&_&_&_&_& -> & _). }
  apply upd_frame' in HU as (_ & U1 & U2 & _ & _ & _ & _ & U3 & _); [|done].
  destruct (frame_accrued s i n n) as (F1 & _ & _ & _ & F2 & _). unfold total_yield.
  rewrite U1, U2, U3, supply_accrued by done. auto.
Qed.

(** The manager message of a delivered VAA. *)
Definition manager_message (c : config) (bz : bytes) : option (Z * manager_msg) :=
  match c_vaa c bz with
  | Some v => match parse_transceiver (va_payload v) with
              | POk t => match parse_manager (tp_manager t) with
                         | POk m => Some (va_chain v, mk_mm (sl_bytes (mp_id m)) (sl_bytes (mp_sender m)) (sl_bytes (mp_payload m)))
                         | _ => None end
              | _ => None end
  | None => None
  end.
Lemma deliver_call_ev c x bz s s' evs : deliver_ev c x bz s = Ok s' evs ->
  exists v pl m evs', accepted c s bz v pl /\ manager_message c bz = Some (va_chain v, m) /\
    handle_payload_ev c x (va_chain v) (mm_sender m) (message_id c (va_chain v) m) pl (consume s (va_digest v)) = Ok s' evs' /\
    evs = evs' ++ [EvDelivered bz].
Proof.
  apply (wp_ok _ _ (fun s' evs => exists v pl m evs', accepted c s bz v pl /\ manager_message c bz = Some (va_chain v, m) /\
    handle_payload_ev c x (va_chain v) (mm_sender m) (message_id c (va_chain v) m) pl (consume s (va_digest v)) = Ok s' evs' /\
    evs = evs' ++ [EvDelivered bz]) top2).
  unfold deliver_ev. apply wp_bind, wp_gets. destruct (p_paused (st_portal s)) eqn:Ep; [done|].
  unfold parse_and_verify_vaa. apply wp_bind. destruct (c_vaa c bz) as [v|] eqn:Ev; [|done].
  apply wp_bind, wp_gets. bd; [done|]. apply wp_bind, wp_modify, wp_ret.
  apply wp_bind, wp_gets. cbn [st_portal].
  match goal with |- context [p_peers ?x !! _] => change (p_peers x) with (p_peers (st_portal s)) end.
  destruct (p_peers (st_portal s) !! va_chain v) as [pr|] eqn:Epr; [|done].
  bd; [|done]. cbn [negb]. apply wp_bind, wp_lift; [|done]. intros t Ht.
  bd; [|done]. cbn [negb]. bd; [|done]. cbn [negb]. apply wp_bind, wp_lift; [|done]. intros m Hm.
  apply wp_bind. apply wp_top. intros s1 evs1 Hs1. apply wp_ret.
  exists v, (mp_payload m), (mk_mm (sl_bytes (mp_id m)) (sl_bytes (mp_sender m)) (sl_bytes (mp_payload m))), evs1.
  split; [constructor; eauto 10|]. split; [unfold manager_message; by rewrite Ev, Ht, Hm|]. split; [exact Hs1|done].
Qed.
Lemma index_events c x bz i s s' evs : winv c s -> carried_index c bz = Some i -> exec_ev c (OpDeliver x bz) s = Ok s' evs ->
  exists y, evs = [EvIndexUpdated (current_index s) i (total_principal s) y; EvDelivered bz] /\ 0 <= y /\
    current_index s' = i /\ supply s' = supply s + y /\ total_yield s' = total_yield s + y.
Proof.
  intros [Hw _] Hi H. cbn in H. apply deliver_call_ev in H as (v & pl & m & evs' & Ha & _ & H & ->).
  unfold carried_index in Hi. rewrite (carried_eq _ _ _ _ _ Ha) in Hi.
  unfold handle_payload_ev in H. apply bind_ok in H as (? & ty & Et & H). apply lift_ok in Et as [Et ->]. rewrite Et in Hi.
  destruct ty; try discriminate. apply bind_ok in H as (? & [i' ch] & Ed & H). apply lift_ok in Ed as [Ed ->]. rewrite Ed in Hi.
  injection Hi as ->. cbn [fst snd] in H. ck1 H.
  apply update_event in H as (y & -> & H); [exists y; split; [done|exact H]| |].
  - change (bal (consume s (va_digest v)) ModuleA) with (bal s ModuleA). by rewrite (wf_module c s Hw).
  - apply (wf_coll c s Hw).
Qed.
Lemma unknown_events c x bz s s' evs : carried_index c bz = None -> carried_token c bz = None -> exec_ev c (OpDeliver x bz) s = Ok s' evs ->
  evs = [EvDelivered bz] /\ current_index s' = current_index s /\ supply s' = supply s /\ total_yield s' = total_yield s.
Proof.
  intros Hi Htk H. cbn in H. apply deliver_call_ev in H as (v & pl & m & evs' & Ha & _ & H & ->).
  unfold carried_index, carried_token in *. rewrite (carried_eq _ _ _ _ _ Ha) in Hi, Htk.
  unfold handle_payload_ev in H. apply bind_ok in H as (? & ty & Et & H). apply lift_ok in Et as [Et ->]. rewrite Et in Hi, Htk.
  destruct ty.
  - apply ret_ok in H as [-> ->]. done.
  - apply bind_ok in H as (? & t & Ed & H). apply lift_ok in Ed as [Ed ->]. by rewrite Ed in Htk.
  - apply bind_ok in H as (? & [i' ch] & Ed & H). apply lift_ok in Ed as [Ed ->]. by rewrite Ed in Hi.
Qed.
(** A token message whose index update fails after writes that are kept. *)
Definition ignored (c : config) (s : state) (o : op) : Prop :=
  exists x bz t v s1 e, o = OpDeliver x bz /\ carried_token c bz = Some t /\ c_vaa c bz = Some v /\
    current_index s < tk_index t /\ update_index c x (tk_index t) (consume s (va_digest v)) = Err s1 e.
Lemma token_events c x bz t s s' evs : chain_ok c -> winv c s -> carried_token c bz = Some t -> exec_ev c (OpDeliver x bz) s = Ok s' evs ->
  exists ch m us, manager_message c bz = Some (ch, m) /\
    evs = us ++ [EvMTokenReceived ch (sl_bytes (tk_token t)) (mm_sender m) (c_enc c (c_acct c (sl_bytes (tk_recipient t))))
                   (tk_amount t) (tk_index t) (message_id c ch m);
                 EvTransferRedeemed (message_id c ch m); EvDelivered bz] /\
    ((exists y, us = [EvIndexUpdated (current_index s) (tk_index t) (total_principal s) y] /\ 0 <= y /\
        current_index s' = tk_index t /\ supply s' = supply s + y + tk_amount t /\ total_yield s' = total_yield s + y) \/
     us = [] /\ tk_index t <= current_index s /\
        current_index s' = current_index s /\ supply s' = supply s + tk_amount t /\ total_yield s' = total_yield s \/
     us = [] /\ ignored c s (OpDeliver x bz) /\ current_index s < tk_index t /\ current_index s' = tk_index t /\
        exists n y, 0 <= n /\ n = present (total_principal s) (tk_index t) - supply s /\ (y = n \/ y = 0) /\
          supply s' = supply s + n + tk_amount t /\ total_yield s' = total_yield s + y).
Proof.
  intros Hc [Hw _] Htk H. cbn in H. apply deliver_call_ev in H as (v & pl & m & evs' & Ha & Hm & H & ->).
  pose proof Htk as Htk0. unfold carried_token in Htk. rewrite (carried_eq _ _ _ _ _ Ha) in Htk.
  unfold handle_payload_ev in H. apply bind_ok in H as (? & ty & Et & H). apply lift_ok in Et as [Et ->]. rewrite Et in Htk.
  destruct ty; try discriminate. apply bind_ok in H as (? & t' & Ed & H). apply lift_ok in Ed as [Ed ->]. rewrite Ed in Htk.
  injection Htk as ->. do 2 ck1 H. apply bind_ok in H as (s2 & us & Hmint & H). apply ret_ok in H as [-> ->].
  exists (va_chain v), m, us. split; [done|]. split; [by rewrite <- app_assoc|].
  set (s0 := consume s (va_digest v)) in *.
  assert (Hb0 : 0 <= bal s0 ModuleA). { change (bal s0 ModuleA) with (bal s ModuleA). by rewrite (wf_module c s Hw). }
  assert (Hg0 : good_collector s0) by apply (wf_coll c s Hw).
  unfold mint_ev in Hmint. apply bind_ok in Hmint as (s1 & us' & Hup & Hmint).
  assert (HI : forall s1, bal s1 ModuleA = bal s ModuleA ->
    (amt <- new_coins (tk_amount t);; mint_coins amt;;; send_to_account c ModuleA (c_acct c (sl_bytes (tk_recipient t))) amt;;; ret us') s1 = Ok s2 us ->
    us = us' /\ current_index s2 = current_index s1 /\ supply s2 = supply s1 + tk_amount t /\ total_yield s2 = total_yield s1).
  { clear Hmint Hup s1. intros s1 Hb1 Hs.
    assert (HQ : (amt <- new_coins (tk_amount t);; mint_coins amt;;; send_to_account c ModuleA (c_acct c (sl_bytes (tk_recipient t))) amt) s1 = Ok s2 tt /\ us = us').
    { apply bind_ok in Hs as (? & z & E1 & Hs). apply bind_ok in Hs as (? & [] & E2 & Hs). apply bind_ok in Hs as (? & [] & E3 & Hs).
      apply ret_ok in Hs as [-> ->]. split; [|done]. unfold bind. by rewrite E1, E2. }
    destruct HQ as [HQ ->]. split; [done|].
    revert HQ. apply (wp_ok _ _ (fun s2 _ => current_index s2 = current_index s1 /\ supply s2 = supply s1 + tk_amount t /\ total_yield s2 = total_yield s1) top2).
    apply issue_spec; [rewrite Hb1, (wf_module c s Hw); lia|apply (ok_blocked c Hc)|]. intros Hn _ _.
    destruct (frame_issued s1 (c_acct c (sl_bytes (tk_recipient t))) (tk_amount t)) as (F1 & F2).
    rewrite supply_issued by done. split; [done|]. split; [done|]. unfold issued. by destruct (0 <? tk_amount t). }
  unfold attempt in Hup. destruct (update_index_ev c x (tk_index t) s0) as [s3 ev3|s3 e|] eqn:Eu; [| |discriminate].
  - injection Hup as <- <-. assert (HU : update_index c x (tk_index t) s0 = Ok s3 tt) by (by rewrite <- update_er, Eu).
    apply update_event in Eu as (y & -> & Hy & U1 & U2 & U3); [|done..].
    apply HI in Hmint as (-> & M1 & M2 & M3).
    + left. exists y. split; [done|]. split; [done|]. split; [congruence|]. split; [rewrite M2, U2; change (supply s0) with (supply s); lia|].
      rewrite M3, U3. done.
    + apply update_index_inv in HU; [|done..].
      assert (HT : index_tried c (tk_index t) s0 s3). { destruct HU as (U4 & n & U5 & U6 & U7). right. split; [done|]. exists n, n. auto. }
      by apply index_tried_frame in HT as (_ & -> & _).
  - injection Hup as <- <-. assert (HU : update_index c x (tk_index t) s0 = Err s3 e) by (by rewrite <- update_er, Eu).
    right. destruct (Z.leb_spec (tk_index t) (current_index s)) as [Hle|Hlt].
    + left. unfold update_index_ev in Eu. unfold get_index, gets, bind at 1 in Eu. cbv beta iota in Eu.
      change (current_index s0) with (current_index s) in Eu.
      rewrite (proj2 (Z.leb_le (tk_index t) (current_index s)) Hle) in Eu. injection Eu as <- _.
      apply HI in Hmint as (-> & M1 & M2 & M3); [|done]. auto.
    + right.
      assert (HT : index_tried c (tk_index t) s0 s3).
      { assert (Et3 : try (update_index c x (tk_index t)) s0 = Ok s3 false) by (unfold try; by rewrite HU). revert Et3.
        apply (wp_ok _ _ (fun s1 _ => index_tried c (tk_index t) s0 s1) top2). apply update_index_tried; auto. }
      destruct (index_tried_frame _ _ _ _ HT Hg0) as (_ & B3 & _). apply HI in Hmint as (-> & M1 & M2 & M3); [|exact B3].
      destruct HT as [[HT _]|(_ & n & d & Hn & Hn0 & Hd & HT)]; [change (current_index s0) with (current_index s) in HT; lia|].
      assert (Hg1 : good_collector (accrued s0 (tk_index t) n d)).
      { unfold good_collector. by destruct (frame_accrued s0 (tk_index t) n d) as (_&_&_&_&_&_&_&_&_&_& -> & _). }
      apply upd_frame' in HT as (_ & U1 & U2 & _ & _ & _ & _ & U3 & _); [|done].
      destruct (frame_accrued s0 (tk_index t) n d) as (F1 & _ & _ & _ & F2 & _). rewrite supply_accrued in U2 by done.
      split; [done|]. split; [|split; [done|]; split; [congruence|]].
      2:{ exists n, d. split; [done|]. split; [done|]. split; [tauto|]. split; [rewrite M2, U2; done|].
          rewrite M3. unfold total_yield. rewrite U3, F2. done. }
      * exists x, bz, t, v, s3, e. split; [done|]. split; [done|]. split; [by destruct Ha|]. auto.
Qed.

(** * Transfers *)
Lemma transfer_events c ps g ch tok rc amount s s' evs : winv c s -> exec_ev c (OpTransfer ps g ch tok rc amount) s = Ok s' evs ->
  exists b amt to mm d, c_dec c g = Some (AUser b) /\ amount = Some amt /\ 0 <= amt /\
    evs = [EvUSDNTokenSent (raw_token c) ch tok g rc amt (current_index s) d;
           EvTransferSent rc amt ch (p_nonce (st_portal s)); EvTransferSentDigest d] /\
    d = c_keccak c (be_encode 2 (c_chain c) ++ mm) /\
    x_posted (st_world s') = x_posted (st_world s) ++ [(encode_transceiver (mk_tm (padded_manager c) to mm []), p_nonce (st_portal s))] /\
    supply s' = supply s - amt /\ bal s' (AUser b) = bal s (AUser b) - amt.
Proof.
  intros [Hw _] H0. pose proof (exec_ev_ok _ _ _ _ _ H0) as H1.
  destruct (transfer_inv' _ _ _ _ _ _ _ _ _ (wf_module _ _ Hw) H1)
    as (b & amt & pr & sender & id & Hd & -> & Hamt & -> & Hp & Hpr & Hpath & Hrc & Hse & Hid & Hbal & ->).
  exists b, amt, (pr_manager pr), (encode_manager (mk_mm id sender
          (encode_ntt (mk_ntt amt (raw_token c) rc ch (encode_additional (current_index s) tok))))),
    (message_id c (c_chain c) (mk_mm id sender (encode_ntt (mk_ntt amt (raw_token c) rc ch (encode_additional (current_index s) tok))))).
  split; [done|]. split; [done|]. split; [lia|]. split; [|split; [done|]].
  - cbn in H0. apply signed_ev_ok in H0 as [H _]. unfold transfer_ev in H. do 3 ck1 H. rewrite Hpr in H. cbv iota in H. do 4 ck1 H. cbv iota in H.
    apply bind_ok in H as (? & raw & Er & H). apply lift_ok in Er as [Er ->].
    assert (raw = amt) as -> by (unfold int_uint64 in Er; destruct (_ && _); congruence).
    cbv zeta in H. rewrite Hd in H. rewrite Hse in H. apply bind_ok in H as (? & se & Es & H). apply lift_ok in Es as [Es ->]. injection Es as <-.
    apply bind_ok in H as (s1 & nonce & En & H). unfold increment_nonce in En. ck1 En. ck1 En. apply ret_ok in En as [-> ->].
    rewrite Hid in H. apply bind_ok in H as (? & i2 & Ei & H). apply lift_ok in Ei as [Ei ->]. injection Ei as <-.
    apply bind_ok in H as (s2 & [] & Eb & H). cbn [negb] in H. ck1 H.
    apply bind_ok in H as (? & z & Ez & H). apply lift_ok in Ez as [Ez ->].
    assert (z = amt) as -> by (unfold int_int64 in Ez; destruct (_ && _); congruence).
    by apply ret_ok in H as [_ ->].
  - split; [|split].
    + unfold post. cbn. by destruct (frame_burned (bump_nonce s) (AUser b) amt) as (_&_&_&_&_&_&_&_& ->).
    + change (supply (post ?s ?m)) with (supply s). rewrite supply_burned by lia. done.
    + change (bal (post ?s ?m) ?a) with (bal s a). rewrite bal_burned by (try done; lia). unfold ind. rewrite decide_True by done. done.
Qed.

(** * The settings *)
Definition no_setting (e : event) : Prop := forall b, read_setting b e = b.
Lemma read_none l b : Forall no_setting l -> read_settings b l = b.
Proof. unfold read_settings. induction 1 as [|e l He _ IH]; [done|]. cbn. by rewrite He. Qed.
Lemma quiet_events c o s s' evs : chain_ok c -> winv c s -> administrative o = false -> exec_ev c o s = Ok s' evs -> Forall no_setting evs.
Proof.
  intros Hc Hw Ho H.
  assert (HN : forall e, match e with EvPaused _ | EvYieldRecipientSet _ _ _ | EvPortalPaused _ | EvOwnershipTransferred _ _ | EvPeerUpdated _ _ _ _ _
    | EvBridgingPathSet _ _ _ | EvVaultsPaused _ => False | _ => True end -> no_setting e).
  { intros e He []. by destruct e. }
  assert (HX : forall m : M unit, (m;;; ret []) s = Ok s' evs -> evs = []).
  { intros m Hm. apply bind_ok in Hm as (? & [] & _ & Hm). by apply ret_ok in Hm as [_ ->]. }
  destruct o; try discriminate Ho; try (cbn [exec_ev] in H; apply HX in H as ->; constructor).
  - apply claim_event in H as (b & y & _ & -> & _). repeat constructor; by apply HN.
  - apply lock_event in H as (b & amt & q & _ & _ & -> & _); [|done]. repeat constructor; by apply HN.
  - apply unlock_events in H as (b & amt & _ & _ & HF & _); [|done..]. eapply Forall_impl; [exact HF|].
    intros e He. apply HN. by destruct e.
  - match type of H with exec_ev _ (OpDeliver _ ?z) _ = _ => rename z into bz end.
    destruct (carried_index c bz) as [i|] eqn:Ei.
    { eapply index_events in H as (y & -> & _); [|done..]. repeat constructor; by apply HN. }
    destruct (carried_token c bz) as [t|] eqn:Et.
    { eapply token_events in H as (ch & m & us & _ & -> & H); [|done..].
      apply Forall_app. split; [|repeat constructor; by apply HN].
      destruct H as [(y & -> & _)|[(-> & _)|(-> & _)]]; repeat constructor; by apply HN. }
    apply unknown_events in H as (-> & _); [|done..]. repeat constructor; by apply HN.
  - apply transfer_events in H as (b & amt & to & mm & d & _ & _ & _ & -> & _); [|done]. repeat constructor; by apply HN.
Qed.
Lemma settings_step c o s s' evs : chain_ok c -> winv c s -> exec_ev c o s = Ok s' evs ->
  settings_of s' = read_settings (settings_of s) evs.
Proof.
  intros Hc Hw H. pose proof (exec_ev_ok _ _ _ _ _ H) as He. destruct (administrative o) eqn:Ho.
  - apply admin_inv in He; [|done].
    assert (HX : forall (m : M unit) e, (m;;; ret e) s = Ok s' evs -> evs = e).
    { intros m e Hm. apply bind_ok in Hm as (? & [] & _ & Hm). by apply ret_ok in Hm as [_ ->]. }
    destruct o; try discriminate Ho; cbn [admin_result] in He; destruct_and?; subst s';
      try (cbn [exec_ev] in H; apply HX in H as ->; done).
  - rewrite read_none by (by eapply quiet_events). apply settings_op in He as [E1 E2 E3]; [|done..].
    unfold settings_of. unfold drest in E1. injection E1 as -> ->. by rewrite E2, E3.
Qed.

(** * Histories *)
Lemma events_cons c s o l : events c s (o :: l) = events c s [o] ++ events c (step c s o) l.
Proof. cbn. by rewrite app_nil_r. Qed.
Lemma step_ev c s o : (step c s o = s /\ events c s [o] = []) \/ exec_ev c o s = Ok (step c s o) (events c s [o]).
Proof.
  unfold step. cbn. rewrite app_nil_r. rewrite <- exec_ev_erase. destruct (exec_ev c o s) as [s' evs| |]; cbn; auto.
Qed.
Lemma winv_next c s o : chain_ok c -> winv c s -> winv c (step c s o).
Proof. intros Hc Hw. destruct (step_cases c s o) as [->|H]; [done|]. by eapply winv_step. Qed.
Lemma settings_history c l : chain_ok c -> forall s, winv c s -> settings_of (run c s l) = read_settings (settings_of s) (events c s l).
Proof.
  intros Hc. induction l as [|o l IH]; intros s Hw; [done|].
  rewrite run_cons, events_cons, IH by (by apply winv_next). unfold read_settings. rewrite foldl_app. f_equal.
  destruct (step_ev c s o) as [[-> ->]|H]; [done|]. by eapply settings_step.
Qed.
Lemma vaults_step c o s s' evs : chain_ok c -> winv c s -> exec_ev c o s = Ok s' evs ->
  (forall v, vault_principal s' v = vault_principal s v + log_sum (principal_in v) evs) /\
  distributed s' = distributed s + log_sum ev_reward evs.
Proof.
  intros Hc Hw H. pose proof (exec_ev_ok _ _ _ _ _ H) as He. destruct (lock_op o) eqn:Ho.
  - destruct o; try discriminate Ho.
    + apply lock_event in H as (b & amt & q & _ & _ & -> & _ & H1 & _ & H2 & H3); [|done]. split.
      * intros w. rewrite log_sum_cons. cbn. destruct (Z.eqb_spec vault w) as [<-|]; [lia|]. rewrite H2 by congruence. lia.
      * rewrite log_sum_cons. cbn. lia.
    + apply unlock_events in H as (b & amt & _ & _ & _ & _ & H1 & H2 & _); [|done..]. auto.
  - destruct (stakes_same _ _ _ _ Hc Hw Ho He) as (_ & _ & ES).
    assert (HZ : Forall (fun e => (forall v, principal_in v e = 0) /\ ev_reward e = 0) evs).
    { assert (HN : forall e, match e with EvPositionLocked _ _ _ _ _ | EvPositionUnlocked _ _ _ _ _ | EvRewardClaimed _ _ => False | _ => True end ->
        (forall v, principal_in v e = 0) /\ ev_reward e = 0) by (intros e Hne; by destruct e).
      assert (HX : forall (m : M unit) e, (m;;; ret e) s = Ok s' evs -> evs = e).
      { intros m e Hm. apply bind_ok in Hm as (? & [] & _ & Hm). by apply ret_ok in Hm as [_ ->]. }
      destruct o; try discriminate Ho; try (cbn [exec_ev] in H; apply HX in H as ->; repeat constructor; by apply HN).
      - apply claim_event in H as (b & y & _ & -> & _). repeat constructor; by apply HN.
      - match type of H with exec_ev _ (OpDeliver _ ?z) _ = _ => rename z into bz end.
    destruct (carried_index c bz) as [i|] eqn:Ei.
        { eapply index_events in H as (y & -> & _); [|done..]. repeat constructor; by apply HN. }
        destruct (carried_token c bz) as [t|] eqn:Et.
        { eapply token_events in H as (ch & m & us & _ & -> & H); [|done..].
          apply Forall_app. split; [|repeat constructor; by apply HN].
          destruct H as [(y & -> & _)|[(-> & _)|(-> & _)]]; repeat constructor; by apply HN. }
        apply unknown_events in H as (-> & _); [|done..]. repeat constructor; by apply HN.
      - apply transfer_events in H as (b & amt & to & mm & d & _ & _ & _ & -> & _); [|done]. repeat constructor; by apply HN. }
    split; [intros v|].
    + rewrite (log_sum_zero (principal_in v)); [unfold vault_principal; rewrite ES; lia|].
      eapply Forall_impl; [exact HZ|]. intros e [He1 _]. apply He1.
    + rewrite (log_sum_zero ev_reward); [unfold distributed; rewrite ES; lia|].
      eapply Forall_impl; [exact HZ|]. intros e [_ He1]. apply He1.
Qed.
Lemma vaults_history c l : chain_ok c -> forall s, winv c s ->
  (forall v, vault_principal (run c s l) v = vault_principal s v + log_sum (principal_in v) (events c s l)) /\
  distributed (run c s l) = distributed s + log_sum ev_reward (events c s l).
Proof.
  intros Hc. induction l as [|o l IH]; intros s Hw; [cbn [events]; split; [intros v|]; rewrite log_sum_nil, Z.add_0_r; done|].
  destruct (IH (step c s o)) as [I1 I2]; [by apply winv_next|].
  assert (HS : (forall v, vault_principal (step c s o) v = vault_principal s v + log_sum (principal_in v) (events c s [o])) /\
    distributed (step c s o) = distributed s + log_sum ev_reward (events c s [o])).
  { destruct (step_ev c s o) as [[-> ->]|H]; [|by eapply vaults_step].
    split; [intros v|]; rewrite log_sum_nil; lia. }
  destruct HS as [S1 S2]. rewrite run_cons, events_cons. split; [intros v|]; rewrite log_sum_app.
  - rewrite I1, S1. lia.
  - rewrite I2, S2. lia.
Qed.

(** The index, the supply and the yield, unless an update failed and was ignored. *)
Fixpoint none_ignored (c : config) (s : state) (l : list op) : Prop :=
  match l with [] => True | o :: l => ~ ignored c s o /\ none_ignored c (step c s o) l end.
Lemma money_step c o s s' evs : chain_ok c -> winv c s -> ~ ignored c s o -> exec_ev c o s = Ok s' evs ->
  current_index s' = foldl read_index (current_index s) evs /\ supply s' = supply s + log_sum ev_supply evs /\
  total_yield s' = total_yield s + log_sum ev_yield evs.
Proof.
  intros Hc Hw Hig H. pose proof (exec_ev_ok _ _ _ _ _ H) as He. destruct (money_op o) eqn:Ho.
  - destruct o; try discriminate Ho.
    + match type of H with exec_ev _ (OpDeliver _ ?z) _ = _ => rename z into bz end.
      destruct (carried_index c bz) as [i|] eqn:Ei.
      { eapply index_events in H as (y & -> & _ & -> & -> & ->); [|done..]. rewrite !log_sum_cons, !log_sum_nil. cbn. lia. }
      destruct (carried_token c bz) as [t|] eqn:Et.
      { eapply token_events in H as (ch & m & us & _ & -> & H); [|done..].
        rewrite foldl_app, !log_sum_app, !log_sum_cons, !log_sum_nil.
        destruct H as [(y & -> & _ & -> & -> & ->)|[(-> & _ & -> & -> & ->)|(_ & H & _)]]; [..|done];
          rewrite ?log_sum_cons, ?log_sum_nil; cbn; lia. }
      apply unknown_events in H as (-> & -> & -> & ->); [|done..]. rewrite !log_sum_cons, !log_sum_nil. cbn. lia.
    + destruct (yield_stat_op _ _ _ _ Hc Hw He I) as [EY EI].
      apply transfer_events in H as (b & amt & to & mm & d & _ & _ & _ & -> & _ & _ & -> & _); [|done].
      unfold total_yield. rewrite EY, EI, !log_sum_cons, !log_sum_nil. cbn. lia.
  - rewrite (supply_op_same _ _ _ _ Hc Hw He Ho).
    destruct (yield_stat_op _ _ _ _ Hc Hw He) as [EY EI]; [by destruct o|]. unfold total_yield. rewrite EY, EI.
    assert (HZ : Forall (fun e => (forall i, read_index i e = i) /\ ev_supply e = 0 /\ ev_yield e = 0) evs).
    { assert (HN : forall e, match e with EvIndexUpdated _ _ _ _ | EvMTokenReceived _ _ _ _ _ _ _ | EvUSDNTokenSent _ _ _ _ _ _ _ _ => False | _ => True end ->
        (forall i, read_index i e = i) /\ ev_supply e = 0 /\ ev_yield e = 0) by (intros e Hne; by destruct e).
      assert (HX : forall (m : M unit) e, (m;;; ret e) s = Ok s' evs -> evs = e).
      { intros m e Hm. apply bind_ok in Hm as (? & [] & _ & Hm). by apply ret_ok in Hm as [_ ->]. }
      destruct o; try discriminate Ho; try (cbn [exec_ev] in H; apply HX in H as ->; repeat constructor; by apply HN).
      - apply claim_event in H as (b & y & _ & -> & _). repeat constructor; by apply HN.
      - apply lock_event in H as (b & amt & q & _ & _ & -> & _); [|done]. repeat constructor; by apply HN.
      - apply unlock_events in H as (b & amt & _ & _ & HF & _); [|done..]. eapply Forall_impl; [exact HF|].
        intros e Hne. apply HN. by destruct e. }
    rewrite (log_sum_zero ev_supply), (log_sum_zero ev_yield);
      [|eapply Forall_impl; [exact HZ|]; cbn; tauto|eapply Forall_impl; [exact HZ|]; cbn; tauto].
    split; [|lia]. clear - HZ. induction HZ as [|e l [He1 _] _ IH]; [done|]. cbn. by rewrite He1.
Qed.
Lemma money_history c l : chain_ok c -> forall s, winv c s -> none_ignored c s l ->
  current_index (run c s l) = foldl read_index (current_index s) (events c s l) /\
  supply (run c s l) = supply s + log_sum ev_supply (events c s l) /\
  total_yield (run c s l) = total_yield s + log_sum ev_yield (events c s l).
Proof.
  intros Hc. induction l as [|o l IH]; intros s Hw; [cbn [events none_ignored]; rewrite !log_sum_nil, !Z.add_0_r; done|].
  intros [Hi Hl]. destruct (IH (step c s o)) as (I1 & I2 & I3); [by apply winv_next|done|].
  assert (HS : current_index (step c s o) = foldl read_index (current_index s) (events c s [o]) /\
    supply (step c s o) = supply s + log_sum ev_supply (events c s [o]) /\
    total_yield (step c s o) = total_yield s + log_sum ev_yield (events c s [o])).
  { destruct (step_ev c s o) as [[-> ->]|H]; [|by eapply money_step]. rewrite !log_sum_nil. cbn. lia. }
  destruct HS as (S1 & S2 & S3). rewrite run_cons, events_cons, foldl_app, !log_sum_app. rewrite I1, I2, I3, S1, S2, S3. lia.
Qed.

(** In any case the index follows from the events that carry it, and the log does not
    overstate supply and yield. *)
Definition read_indexes (i : Z) (e : event) : Z :=
  match e with EvIndexUpdated _ n _ _ => n | EvMTokenReceived _ _ _ _ _ n _ => Z.max i n | _ => i end.
Lemma bound_step c o s s' evs : chain_ok c -> winv c s -> exec_ev c o s = Ok s' evs ->
  current_index s' = foldl read_indexes (current_index s) evs /\ supply s + log_sum ev_supply evs <= supply s' /\
  total_yield s + log_sum ev_yield evs <= total_yield s'.
Proof.
  intros Hc Hw H.
  assert (HQ : (exists x bz t, o = OpDeliver x bz /\ carried_index c bz = None /\ carried_token c bz = Some t) \/
    ~ ignored c s o /\ Forall (fun e => match e with EvMTokenReceived _ _ _ _ _ _ _ => False | _ => True end) evs).
  { assert (HX : forall (m : M unit) e, (m;;; ret e) s = Ok s' evs -> evs = e).
    { intros m e Hm. apply bind_ok in Hm as (? & [] & _ & Hm). by apply ret_ok in Hm as [_ ->]. }
    assert (HO : (forall x bz, o <> OpDeliver x bz) -> ~ ignored c s o) by (intros Hne (x & bz & t & v & s1 & e & -> & _); by eapply Hne).
    destruct o; try (right; split; [by apply HO|cbn [exec_ev] in H; apply HX in H as ->; by repeat constructor]).
    - right. split; [by apply HO|]. apply claim_event in H as (b & y & _ & -> & _). by repeat constructor.
    - right. split; [by apply HO|]. apply lock_event in H as (b & amt & q & _ & _ & -> & _); [|done]. by repeat constructor.
    - right. split; [by apply HO|]. apply unlock_events in H as (b & amt & _ & _ & HF & _); [|done..]. eapply Forall_impl; [exact HF|].
      intros e Hne. by destruct e.
    - match type of H with exec_ev _ (OpDeliver _ ?z) _ = _ => rename z into bz end.
      assert (HG : carried_token c bz = None -> ~ ignored c s (OpDeliver x bz)).
      { intros Hn (x' & bz' & t & v & s1 & e & [= <- <-] & Ht & _). congruence. }
      destruct (carried_index c bz) as [i|] eqn:Ei.
      { right. eapply index_events in H as (y & -> & _); [|done..]. split; [|by repeat constructor].
        apply HG. unfold carried_index, carried_token in *. destruct (carried c bz) as [pl|]; [|done].
        destruct (get_payload_type pl) as [[]| |]; done. }
      destruct (carried_token c bz) as [t|] eqn:Et; [left; by exists x, bz, t|]. right.
      apply unknown_events in H as (-> & _); [|done..]. split; [by apply HG|by repeat constructor].
    - right. split; [by apply HO|]. apply transfer_events in H as (b & amt & to & mm & d & _ & _ & _ & -> & _); [|done]. by repeat constructor. }
  destruct HQ as [(x & bz & t & -> & Ei & Et)|[Hig HF]].
  - eapply token_events in H as (ch & m & us & _ & -> & H); [|done..].
    rewrite foldl_app, !log_sum_app, !log_sum_cons, !log_sum_nil.
    destruct H as [(y & -> & Hy & -> & -> & ->)|[(-> & Hle & -> & -> & ->)|(-> & _ & Hlt & -> & n & y & Hn & _ & Hy & -> & ->)]];
      rewrite ?log_sum_cons, ?log_sum_nil; cbn; lia.
  - destruct (money_step _ _ _ _ _ Hc Hw Hig H) as (-> & -> & ->). split; [|lia].
    generalize (current_index s). clear - HF. induction HF as [|e l He _ IH]; intros i; [done|]. cbn. rewrite IH. by destruct e.
Qed.
Lemma bound_history c l : chain_ok c -> forall s, winv c s ->
  current_index (run c s l) = foldl read_indexes (current_index s) (events c s l) /\
  supply s + log_sum ev_supply (events c s l) <= supply (run c s l) /\
  total_yield s + log_sum ev_yield (events c s l) <= total_yield (run c s l).
Proof.
  intros Hc. induction l as [|o l IH]; intros s Hw; [cbn [events run]; rewrite !log_sum_nil; repeat split; cbn; lia|].
  destruct (IH (step c s o)) as (I1 & I2 & I3); [by apply winv_next|].
  assert (HS : current_index (step c s o) = foldl read_indexes (current_index s) (events c s [o]) /\
    supply s + log_sum ev_supply (events c s [o]) <= supply (step c s o) /\
    total_yield s + log_sum ev_yield (events c s [o]) <= total_yield (step c s o)).
  { destruct (step_ev c s o) as [[-> ->]|H]; [|by eapply bound_step]. rewrite !log_sum_nil. cbn. lia. }
  destruct HS as (S1 & S2 & S3). rewrite run_cons, events_cons, foldl_app, !log_sum_app. rewrite I1, S1. split; [done|]. lia.
Qed.

(** The VAAs consumed and the messages posted. *)
Lemma omap_nothing {A} (f : event -> option A) l : Forall (fun e => f e = None) l -> omap f l = [].
Proof. induction 1 as [|e l He _ IH]; [done|]. cbn. by rewrite He. Qed.
Lemma bridge_step c o s s' evs : chain_ok c -> winv c s -> exec_ev c o s = Ok s' evs ->
  x_vaas (st_world s') = list_to_set (ev_digests c evs) ∪ x_vaas (st_world s) /\
  NoDup (ev_digests c evs) /\ (forall d, d ∈ ev_digests c evs -> d ∉ x_vaas (st_world s)) /\
  (x_posted (st_world s')).*2 = (x_posted (st_world s)).*2 ++ ev_nonces evs.
Proof.
  intros Hc Hw H. pose proof (exec_ev_ok _ _ _ _ _ H) as He.
  pose proof (vaas_op _ _ _ _ Hc Hw He) as HV. pose proof (posted_op _ _ _ _ Hc Hw He) as HP.
  assert (HS : forall l, ev_digests c l = [] -> ev_nonces l = [] -> evs = l ->
    x_vaas (st_world s') = x_vaas (st_world s) -> x_posted (st_world s') = x_posted (st_world s) ->
    x_vaas (st_world s') = list_to_set (ev_digests c evs) ∪ x_vaas (st_world s) /\
    NoDup (ev_digests c evs) /\ (forall d, d ∈ ev_digests c evs -> d ∉ x_vaas (st_world s)) /\
    (x_posted (st_world s')).*2 = (x_posted (st_world s)).*2 ++ ev_nonces evs).
  { intros l E1 E2 -> E3 E4. rewrite E1, E2, E3, E4, app_nil_r. cbn. split; [by rewrite union_empty_l_L|].
    split; [constructor|]. split; [|done]. intros d Hd. by apply elem_of_nil in Hd. }
  assert (HX : forall (m : M unit) e, (m;;; ret e) s = Ok s' evs -> evs = e).
  { intros m e Hm. apply bind_ok in Hm as (? & [] & _ & Hm). by apply ret_ok in Hm as [_ ->]. }
  destruct o; try (cbn [exec_ev] in H; apply HX in H; (eapply HS; [| |exact H|exact HV|exact HP]); reflexivity).
  - apply claim_event in H as (b & y & _ & H & _). (eapply HS; [| |exact H|exact HV|exact HP]); reflexivity.
  - apply lock_event in H as (b & amt & q & _ & _ & H & _); [|done]. (eapply HS; [| |exact H|exact HV|exact HP]); reflexivity.
  - apply unlock_events in H as (b & amt & _ & _ & HF & _); [|done..].
    apply (HS evs); [apply omap_nothing|apply omap_nothing|done..]; (eapply Forall_impl; [exact HF|]); intros e Hne; by destruct e.
  - match type of H with exec_ev _ (OpDeliver _ ?z) _ = _ => rename z into bz end.
    destruct HV as (v & Hv & Hfr & HV).
    assert (HD : ev_digests c evs = [va_digest v] /\ ev_nonces evs = []).
    { assert (HB : ev_digests c [EvDelivered bz] = [va_digest v]) by (cbn; by rewrite Hv).
      destruct (carried_index c bz) as [i|] eqn:Ei.
      { eapply index_events in H as (y & -> & _); [|done..]. split; [exact HB|done]. }
      destruct (carried_token c bz) as [t|] eqn:Et.
      { eapply token_events in H as (ch & m & us & _ & -> & H); [|done..].
        unfold ev_digests, ev_nonces. rewrite !omap_app.
        destruct H as [(y & -> & _)|[(-> & _)|(-> & _)]]; (split; [exact HB|done]). }
      apply unknown_events in H as (-> & _); [|done..]. split; [exact HB|done]. }
    destruct HD as [-> ->]. rewrite HV, HP, app_nil_r. cbn. split; [set_solver|]. split; [apply NoDup_singleton|]. split; [|done].
    intros d Hd. apply elem_of_list_singleton in Hd as ->. done.
  - apply transfer_events in H as (b & amt & to & mm & d & _ & _ & _ & -> & _ & HP' & _); [|done].
    rewrite HV, HP'. rewrite fmap_app. cbn. split; [by rewrite union_empty_l_L|].
    split; [constructor|]. split; [|done]. intros e Hd. by apply elem_of_nil in Hd.
Qed.
Lemma bridge_history c l : chain_ok c -> forall s, winv c s ->
  x_vaas (st_world (run c s l)) = list_to_set (ev_digests c (events c s l)) ∪ x_vaas (st_world s) /\
  NoDup (ev_digests c (events c s l)) /\ (forall d, d ∈ ev_digests c (events c s l) -> d ∉ x_vaas (st_world s)) /\
  (x_posted (st_world (run c s l))).*2 = (x_posted (st_world s)).*2 ++ ev_nonces (events c s l).
Proof.
  intros Hc. induction l as [|o l IH]; intros s Hw.
  { cbn. rewrite app_nil_r. split; [by rewrite union_empty_l_L|]. split; [constructor|]. split; [|done]. intros d Hd. by apply elem_of_nil in Hd. }
  destruct (IH (step c s o)) as (I1 & I2 & I3 & I4); [by apply winv_next|].
  assert (HS : x_vaas (st_world (step c s o)) = list_to_set (ev_digests c (events c s [o])) ∪ x_vaas (st_world s) /\
    NoDup (ev_digests c (events c s [o])) /\ (forall d, d ∈ ev_digests c (events c s [o]) -> d ∉ x_vaas (st_world s)) /\
    (x_posted (st_world (step c s o))).*2 = (x_posted (st_world s)).*2 ++ ev_nonces (events c s [o])).
  { destruct (step_ev c s o) as [[-> ->]|H]; [|by eapply bridge_step].
    cbn. rewrite app_nil_r. split; [by rewrite union_empty_l_L|]. split; [constructor|]. split; [|done]. intros d Hd. by apply elem_of_nil in Hd. }
  destruct HS as (S1 & S2 & S3 & S4). rewrite run_cons, events_cons.
  unfold ev_digests, ev_nonces in *. rewrite !omap_app. split; [|split; [|split]].
  - rewrite I1, S1, list_to_set_app_L. by rewrite (union_comm_L (list_to_set _) (list_to_set _)), (assoc_L (∪)).
  - apply NoDup_app. split; [done|]. split; [|done]. intros d Hd Hd'. apply I3 in Hd'. apply Hd'. rewrite S1.
    apply elem_of_union_l. by apply elem_of_list_to_set.
  - intros d [Hd|Hd]%elem_of_app; [by apply S3|]. apply I3 in Hd. rewrite S1 in Hd. intros Hs. apply Hd. by apply elem_of_union_r.
  - by rewrite I4, S4, app_assoc.
Qed.

(** * What the events say about the past *)
(** The old values in an event, as far as the settings [b] before it have them. *)
Definition said (b : settings) (e : event) : Prop :=
  match e with
  | EvPeerUpdated ch t _ m _ => match se_peers b !! ch with Some pr => t = pr_transceiver pr /\ m = pr_manager pr | None => t = [] /\ m = [] end
  | EvOwnershipTransferred a _ => a = se_owner b
  | _ => True
  end.
Fixpoint said_all (b : settings) (l : list event) : Prop :=
  match l with [] => True | e :: l => said b e /\ said_all (read_setting b e) l end.
Lemma said_app b l1 l2 : said_all b (l1 ++ l2) <-> said_all b l1 /\ said_all (read_settings b l1) l2.
Proof. revert b. induction l1 as [|e l1 IH]; intros b; cbn; [tauto|]. rewrite IH. unfold read_settings. cbn. tauto. Qed.
Lemma said_quiet b l : Forall no_setting l -> said_all b l.
Proof.
  induction 1 as [|e l He _ IH]; [done|]. cbn. split; [|by rewrite He]. destruct e; try done.
  - specialize (He (mk_settings false ∅ false "" ∅ ∅ 0)). apply (f_equal (fun b => se_peers b !! chain)) in He.
    cbn in He. by rewrite lookup_insert in He.
  - specialize (He (mk_settings false ∅ false (String.append "x" new) ∅ ∅ 0)).
    apply (f_equal (fun b => String.length (se_owner b))) in He. unfold String.append in He. cbn in He. lia.
Qed.
Lemma said_step c o s s' evs : chain_ok c -> winv c s -> exec_ev c o s = Ok s' evs -> said_all (settings_of s) evs.
Proof.
  intros Hc Hw H. destruct (administrative o) eqn:Ho; [|by eapply said_quiet, quiet_events].
  pose proof (exec_ev_ok _ _ _ _ _ H) as He. apply admin_inv in He; [|done].
  assert (HX : forall (m : M unit) e, (m;;; ret e) s = Ok s' evs -> evs = e).
  { intros m e Hm. apply bind_ok in Hm as (? & [] & _ & Hm). by apply ret_ok in Hm as [_ ->]. }
  destruct o; try discriminate Ho; cbn [admin_result] in He; destruct_and?; try (cbn [exec_ev] in H; apply HX in H as ->; by cbn).
  - cbn [exec_ev] in H. unfold set_peer_ev in H. ck1 H. apply HX in H as ->. cbn. by destruct (p_peers (st_portal s) !! chain).
Qed.
Lemma said_history c l : chain_ok c -> forall s, winv c s -> said_all (settings_of s) (events c s l).
Proof.
  intros Hc. induction l as [|o l IH]; intros s Hw; [done|]. rewrite events_cons. apply said_app.
  destruct (step_ev c s o) as [[E ->]|H].
  - rewrite E. split; [done|]. by apply IH.
  - split; [by eapply said_step|]. rewrite <- (settings_step _ _ _ _ _ Hc Hw H). by apply IH, winv_next.
Qed.
Theorem past_history c s l e1 e e2 : chain_ok c -> winv c s -> events c s l = e1 ++ e :: e2 ->
  said (read_settings (settings_of s) e1) e.
Proof. intros Hc Hw E. pose proof (said_history c l Hc s Hw) as H. rewrite E in H. apply said_app in H as [_ [H _]]. done. Qed.

(** * The positions of an unlock *)
Definition unlocked (e : event) : option (Z * Z) := match e with EvPositionUnlocked _ _ i _ q => Some (i, q) | _ => None end.
Definition sum_pos (l : list position) : Z := foldr Z.add 0 (pos_amount <$> l).
Lemma loop_positions c g b v l : forall rem removed s s' removed' evs,
  Forall (fun p => 0 < pos_amount p) l -> 0 < rem ->
  unlock_loop_ev c g (AUser b) v l rem removed s = Ok s' (0, removed', evs) ->
  exists l1 p l2 part, l = l1 ++ p :: l2 /\ sum_pos l1 + part = rem /\ 0 < part <= pos_amount p /\
    omap unlocked evs = ((fun p => (pos_index p, down (pos_amount p) (pos_index p))) <$> l1) ++ [(pos_index p, down part (pos_index p))].
Proof.
  induction l as [|p l IH]; intros rem removed s s' removed' evs Hpos Hrem; cbn [unlock_loop_ev].
  { intros [-> H]%ret_ok. injection H as ? ? ?. lia. }
  destruct (Z.eqb_spec rem 0) as [->|Hne]; [lia|].
  apply Forall_cons in Hpos as [Hpa Hpos]. cbv zeta. fold (part_of p rem).
  intros H. apply bind_ok in H as (? & pp & Epp & H). apply lift_ok in Epp as [Epp ->]. apply principal_down_ok in Epp as [_ ->].
  apply bind_ok in H as (s2 & [z evr] & Es & H). cbn [fst snd] in H.
  assert (Hevr : omap unlocked evr = []).
  { destruct (v =? FLEXIBLE).
    - do 3 ck1 Es. apply bind_ok in Es as (s3 & [r evs3] & Er & Es). cbn [fst snd] in Es.
      apply bind_ok in Es as (s4 & [] & Ed & Es). apply bind_ok in Es as (s5 & y & Ey & Es). apply bind_ok in Es as (s6 & z' & Ez & Es).
      apply ret_ok in Es as [_ Es]. injection Es as _ ->. apply claim_rewards_event in Er as (_ & _ & _ & [[-> _] | ->]); done.
    - apply ret_ok in Es as [_ Es]. by injection Es as _ ->. }
  ck1 H. apply bind_ok in H as (s3 & [] & _ & H). apply bind_ok in H as (s4 & [] & _ & H).
  apply bind_ok in H as (? & r1 & E1 & H). apply lift_ok in E1 as [_ ->].
  apply bind_ok in H as (? & r2 & E2 & H). apply lift_ok in E2 as [E2 ->]. apply int_sub_ok in E2. subst r2.
  apply bind_ok in H as (s5 & [[rem2 removed2] evs2] & Hl & H). cbn [fst snd] in H. apply ret_ok in H as [_ H]. injection H as <- -> ->.
  assert (HO : omap unlocked (evr ++ EvPositionUnlocked g v (pos_index p) z (down (part_of p rem) (pos_index p)) :: evs2) =
    (pos_index p, down (part_of p rem) (pos_index p)) :: omap unlocked evs2).
  { rewrite omap_app, Hevr. done. }
  rewrite HO. unfold part_of in *. destruct (Z.ltb_spec rem (pos_amount p)) as [Hlt|Hge].
  - rewrite Z.sub_diag in Hl.
    assert (evs2 = []) as ->. { destruct l; cbn [unlock_loop_ev] in Hl; apply ret_ok in Hl as [_ Hl]; by injection Hl. }
    exists [], p, l, rem. unfold sum_pos. cbn. repeat split; try done; lia.
  - destruct (decide (rem = pos_amount p)) as [->|Hn].
    + rewrite Z.sub_diag in Hl.
      assert (evs2 = []) as ->. { destruct l; cbn [unlock_loop_ev] in Hl; apply ret_ok in Hl as [_ Hl]; by injection Hl. }
      exists [], p, l, (pos_amount p). unfold sum_pos. cbn. repeat split; try done; lia.
    + apply IH in Hl as (l1 & q & l2 & part & -> & Hs & Hp & Ho); [|done|lia].
      exists (p :: l1), q, l2, part. split; [done|]. split; [unfold sum_pos in *; cbn; lia|]. split; [done|]. cbn. by rewrite Ho.
Qed.
Lemma unlock_positions c g v amount s s' evs : chain_ok c -> winv c s -> exec_ev c (OpUnlock g v amount) s = Ok s' evs ->
  exists b amt l1 p l2 part, c_dec c g = Some (AUser b) /\ amount = Some amt /\
    positions_of s (AUser b) v = l1 ++ p :: l2 /\ sum_pos l1 + part = amt /\ 0 < part <= pos_amount p /\
    omap unlocked evs = ((fun p => (pos_index p, down (pos_amount p) (pos_index p))) <$> l1) ++ [(pos_index p, down part (pos_index p))].
Proof.
  intros Hc [Hw Hp] H0. pose proof (exec_ev_ok _ _ _ _ _ H0) as H1.
  destruct (unlock_inv' _ _ _ _ _ _ Hp H1) as (b & amt & _ & _ & Hd & -> & _ & _ & _ & Hv & Hamt & _ & _ & _).
  cbn in H0. apply signed_ev_ok in H0 as [H _]. unfold unlock_ev in H. do 4 ck1 H. rewrite Hd in H. do 6 ck1 H.
  apply bind_ok in H as (s1 & [[rem' removed'] evs'] & Hl & H). cbn [fst snd] in H.
  destruct (Z.eqb_spec rem' 0) as [->|]; [cbn [negb] in H|discriminate].
  apply loop_positions in Hl as (l1 & p & l2 & part & Eps & Hs & Hpp & Ho); [|by apply (pos_wf_positive _ _ _ Hp)|lia].
  exists b, amt, l1, p, l2, part. repeat split; try done; try lia.
  ck1 H. apply bind_ok in H as (s2 & [] & Eu & H). apply bind_ok in H as (s3 & [] & Ep & H). by apply ret_ok in H as [_ ->].
Qed.

(** An unlock starts with a reward exactly in the flexible vault and if that has principal. *)
Lemma unlock_rewards c g v amount s s' evs : chain_ok c -> winv c s -> exec_ev c (OpUnlock g v amount) s = Ok s' evs ->
  (exists a x, head evs = Some (EvRewardClaimed a x)) <-> v = FLEXIBLE /\ 0 < prin s FlexibleA.
Proof.
  intros Hc [Hw Hp] H0. pose proof (exec_ev_ok _ _ _ _ _ H0) as H1.
  destruct (unlock_inv' _ _ _ _ _ _ Hp H1) as (b & amt & _ & _ & Hd & -> & _ & _ & _ & Hv & Hamt & _ & _ & _).
  cbn in H0. apply signed_ev_ok in H0 as [H _]. unfold unlock_ev in H. do 4 ck1 H. rewrite Hd in H. do 6 ck1 H.
  apply bind_ok in H as (s1 & [[rem' removed'] evs'] & Hl & H). cbn [fst snd] in H.
  destruct (Z.eqb_spec rem' 0) as [->|]; [cbn [negb] in H|discriminate].
  assert (evs = evs') as ->.
  { ck1 H. apply bind_ok in H as (s2 & [] & _ & H). apply bind_ok in H as (s3 & [] & _ & H). by apply ret_ok in H as [_ ->]. }
  clear H. destruct (positions_of s (AUser b) v) as [|p l]; cbn [unlock_loop_ev] in Hl.
  { apply ret_ok in Hl as [_ Hl]. injection Hl as ? ? ?. lia. }
  rewrite (proj2 (Z.eqb_neq amt 0)) in Hl by lia. cbv zeta in Hl.
  apply bind_ok in Hl as (? & pp & Epp & Hl). apply lift_ok in Epp as [_ ->].
  apply bind_ok in Hl as (s2 & [z evr] & Es & Hl). cbn [fst snd] in Hl.
  ck1 Hl. apply bind_ok in Hl as (s3 & [] & _ & Hl). apply bind_ok in Hl as (s4 & [] & _ & Hl).
  apply bind_ok in Hl as (? & r1 & _ & Hl). apply bind_ok in Hl as (? & r2 & _ & Hl).
  apply bind_ok in Hl as (s5 & [[rem2 removed2] evs2] & _ & Hl). cbn [fst snd] in Hl. apply ret_ok in Hl as [_ Hl]. injection Hl as _ _ ->.
  destruct (Z.eqb_spec v FLEXIBLE) as [->|Hnf].
  - do 3 ck1 Es. apply bind_ok in Es as (s6 & [r evs3] & Er & Es). cbn [fst snd] in Es.
    apply bind_ok in Es as (s7 & [] & _ & Es). apply bind_ok in Es as (s8 & y & _ & Es). apply bind_ok in Es as (s9 & z' & _ & Es).
    apply ret_ok in Es as [_ Es]. injection Es as _ ->. unfold claim_rewards_ev in Er. ck1 Er.
    match type of Er with context [0 <? ?x] => change x with (prin s FlexibleA) in Er end.
    destruct (Z.ltb_spec 0 (prin s FlexibleA)) as [Hlt|Hge]; cbn [negb] in Er.
    + ck1 Er. apply bind_ok in Er as (? & ap & _ & Er). apply bind_ok in Er as (? & rs & _ & Er). apply bind_ok in Er as (? & tt' & _ & Er).
      apply bind_ok in Er as (? & am & _ & Er). apply bind_ok in Er as (? & [] & _ & Er). apply ret_ok in Er as [_ Er]. injection Er as _ ->.
      cbn. split; eauto.
    + apply ret_ok in Er as [_ Er]. injection Er as _ ->. cbn. split; [intros (? & ? & ?); discriminate|intros [_ ?]; lia].
  - apply ret_ok in Es as [_ Es]. injection Es as _ ->. cbn. split; [intros (? & ? & ?); discriminate|intros [? _]; done].
Qed.
