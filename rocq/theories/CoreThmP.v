(** The core properties in the vocabulary of [Spec]. *)
From Verif Require Export ArithP RunP.

Lemma on_ind b a z : on b a z = ind (b = a) z.
Proof. done. Qed.
Lemma up_ceil a i : 0 <= a -> 0 < i -> up a i = ceil_div (a * unit_index) i.
Proof. intros. unfold ceil_div. change unit_index with e12. by apply up_div. Qed.
Lemma down_floor a i : 0 <= a -> 0 < i -> down a i = floor_div (a * unit_index) i.
Proof. intros. unfold floor_div. change unit_index with e12. by apply down_div. Qed.
Lemma quot_max z : 0 <= Z.quot z e12 -> Z.quot z e12 = Z.max 0 (floor_div z unit_index).
Proof. unfold floor_div. change unit_index with e12. unfold e12. intros. lia. Qed.

(** * Transfers *)
Lemma send_transferred s f t x : ordinary_account f -> ordinary_account t -> 0 < x -> 0 < current_index s ->
  transferred s (send_result s f t x) f t x.
Proof.
  intros [Hf1 Hf2] [Ht1 Ht2] Hx Hi. constructor; try done.
  - intros a. rewrite !on_ind. apply bal_send.
  - intros a. rewrite !on_ind, <- up_ceil by lia. by apply prin_send.
  - by apply tp_send.
Qed.
Theorem transfer_effect s s' f t x : ordinary_account f -> ordinary_account t -> 0 < x -> 0 < current_index s ->
  send_coins f t x s = Ok s' tt -> transferred s s' f t x.
Proof.
  intros Hf Ht Hx Hi E.
  pose proof (wp_ok _ _ _ _ _ _ (send_coins_cases f t x s ltac:(lia)) E) as (_ & _ & ->).
  by apply send_transferred.
Qed.
Lemma in_range_fits s f t x : 0 < x -> 0 < current_index s -> transfer_in_range s f t x -> send_fits s f t x.
Proof. intros Hx Hi [F1 F2 F3 F4 F5]. constructor; try rewrite up_ceil by lia; done. Qed.
Theorem transfer_accepts s f t x : ordinary_account f -> ordinary_account t -> 0 < x -> 0 < current_index s ->
  transfer_in_range s f t x ->
  (exists s', send_coins f t x s = Ok s' tt) <-> x <= bal s f.
Proof.
  intros Hf Ht Hx Hi F. split.
  - intros [s' E]. by pose proof (wp_ok _ _ _ _ _ _ (send_coins_cases f t x s ltac:(lia)) E) as (? & _ & _).
  - intros Hb. eexists. apply send_run; try done. by apply in_range_fits.
Qed.
Theorem transfer_message c s s' f t x : chain_ok c -> reachable c s -> exec c (OpSend f t x) s = Ok s' tt ->
  transferred s s' f t x /\ 0 < x <= bal s f.
Proof.
  intros Hc Hr E. pose proof (winv_reachable _ _ Hc Hr) as [W _].
  destruct (op_send_inv _ _ _ _ _ _ (ok_blocked _ Hc) E) as (He & Hx & ? & ? & ->).
  split; [|done]. apply send_transferred; [by apply external_ordinary|done|lia|apply W].
Qed.
Lemma multi_distributed f l s s' : ordinary f -> 0 < current_index s -> multi f l s s' ->
  paid_out (lifted s f (total_of l)) s' f l.
Proof.
  intros [Hf1 Hf2] Hi H. assert (B : forall s k a, bal (lifted s f k) a = bal s a + on a f k).
  { intros s0 k a. rewrite !bal_mget. cbn. rewrite mget_addz. unfold on. case_decide; lia. }
  induction H as [s|t a l s s' Ha Ht1 Ht2 H IH].
  - constructor; try done; intros a; [rewrite B|change (prin (lifted s f (total_of [])) a) with (prin s a)];
      change (total_of []) with 0; cbn [outputs_total outputs_to outputs_weight foldr]; unfold on; case_decide; lia.
  - assert (I1 : current_index (send_result (lifted s f a) f t a) = current_index s) by done.
    destruct (IH ltac:(by rewrite I1)) as [D1 D2 D3 D4 D5 D6 D7 D8 D9].
    change (total_of ((t, a) :: l)) with (a + total_of l). constructor.
    + intros b. rewrite D1, !B, bal_send, B. cbn [outputs_total outputs_to foldr fst snd]. fold (outputs_total l) (outputs_to (fun x => x) b l).
      change (total_of l) with (outputs_total l). unfold on, ind. repeat case_decide; lia.
    + intros b. rewrite D2.
      change (current_index (lifted (send_result (lifted s f a) f t a) f (total_of l))) with (current_index s).
      change (current_index (lifted s f (a + total_of l))) with (current_index s).
      change (prin (lifted (send_result (lifted s f a) f t a) f (total_of l)) b) with (prin (send_result (lifted s f a) f t a) b).
      change (prin (lifted s f (a + total_of l)) b) with (prin (lifted s f a) b).
      rewrite prin_send by done. change (current_index (lifted s f a)) with (current_index s). rewrite up_ceil by lia.
      set (w := fun x => ceil_div (x * unit_index) (current_index s)). change (ceil_div (a * unit_index) (current_index s)) with (w a).
      change (outputs_weight w ((t, a) :: l)) with (w a + outputs_weight w l).
      change (outputs_to w b ((t, a) :: l)) with (on b t (w a) + outputs_to w b l). unfold on, ind. repeat case_decide; lia.
    + by rewrite D3.
    + rewrite D4. exact (tp_send (lifted s f a) f t a Hf2 Ht2 Hf1 Ht1).
    + by rewrite D5.
    + by rewrite D6.
    + by rewrite D7.
    + by rewrite D8.
    + by rewrite D9.
Qed.
Theorem multi_message c s s' f outs : chain_ok c -> reachable c s -> exec c (OpMultiSend f outs) s = Ok s' tt ->
  paid_out s s' f outs /\ Forall (fun ta => 0 < ta.2) outs /\ 0 < outputs_total outs <= bal s f.
Proof.
  intros Hc Hr E. pose proof (winv_reachable _ _ Hc Hr) as [W _].
  destruct (op_multi_inv _ _ _ _ _ (ok_blocked _ Hc) E) as (He & _ & HF & Hb & M). split; [|done].
  apply multi_distributed in M; [|by apply external_ordinary|apply W]. rewrite lifted_lifted in M.
  replace (- total_of outs + total_of outs) with 0 in M by lia.
  assert (L : lifted s f 0 = s).
  { unfold lifted. rewrite addz_0; [by destruct s as [[] ? ? ? ?]|]. unfold bal in Hb. destruct (bk_bal (st_bank s) !! f); [eauto|]. cbn in Hb. lia. }
  by rewrite L in M.
Qed.

(** * Books *)
Theorem books_sum c s0 ops : chain_ok c -> fresh c s0 ->
  0 <= total_principal (run c s0 ops) - map_sum (d_principal (st_dollar (run c s0 ops))) <= count_ops (issuance c) c s0 ops.
Proof. apply books_balanced. Qed.
Theorem conserved c s : chain_ok c -> reachable c s ->
  supply s = map_sum (bk_bal (st_bank s)) /\ forall a, 0 <= bal s a.
Proof. intros Hc Hr. destruct (solid_reachable _ _ Hc Hr) as [? ?]. split; [|done]. by symmetry. Qed.

Lemma solid_supply s : solid s -> 0 <= supply s.
Proof.
  intros [<- Hb]. rewrite msum_fsum. apply fsum_nonneg. intros k z Hk. specialize (Hb k). unfold bal in Hb. by rewrite Hk in Hb.
Qed.
Lemma reach_w c s : chain_ok c -> reachable c s -> wfs c s.
Proof. intros. by apply wi_wfs, winv_reachable. Qed.

Theorem supply_changes c s o s' : chain_ok c -> reachable c s -> exec c o s = Ok s' tt ->
  match o with
  | OpDeliver _ bz => exists n, 0 <= n /\ supply s' = supply s + n + issued_amount c s o /\
      (current_index s' = current_index s -> n = 0) /\ 0 <= issued_amount c s o
  | OpTransfer _ _ _ _ _ amount => exists x, amount = Some x /\ 0 <= x /\ supply s' = supply s - x
  | _ => supply s' = supply s
  end.
Proof.
  intros Hc Hr E. pose proof (winv_reachable _ _ Hc Hr) as W.
  destruct o; try (apply (supply_op_same c _ _ _ Hc W E); reflexivity).
  - destruct (deliver_effect _ _ _ _ _ Hc (wi_wfs _ _ W) E) as (n & d & [] & _).
    exists n. unfold issued_amount. repeat split; auto.
  - destruct (transfer_inv' _ _ _ _ _ _ _ _ _ (wf_module _ _ (wi_wfs _ _ W)) E)
      as (b & amt & pr & sender & id & _ & -> & Hamt & _ & _ & _ & _ & _ & _ & _ & _ & ->).
    exists amt. split; [done|]. split; [lia|]. change (supply s - amt) with (supply (bump_nonce s) - amt).
    rewrite <- (supply_burned _ (AUser b)) by lia. done.
Qed.

(** * Yield account *)
Theorem yield_refuses f x s : x <> 0 -> f <> ModuleA -> f <> YieldA -> forall s', send_coins f YieldA x s <> Ok s' tt.
Proof. intros Hx H1 H2 s' E. by apply (send_to_yield f x s s' tt). Qed.
Theorem yield_messages c s : chain_ok c -> reachable c s ->
  (forall f x, rejected c s (OpSend f YieldA x)) /\
  (forall f outs x, (YieldA, x) ∈ outs -> rejected c s (OpMultiSend f outs)) /\
  (forall chan rc x, c_dec c rc = Some YieldA -> x <> 0 -> rejected c s (OpIbcRecv chan rc x)) /\
  (forall tok x, rejected c s (OpWarpRecv tok YieldA x)).
Proof.
  intros Hc Hr. pose proof (ok_blocked _ Hc) as Hb. repeat split; intros; unfold rejected.
  - destruct (exec c _ s) as [s' []| |] eqn:E; try done. apply op_send_inv in E; [|done]. naive_solver.
  - destruct (exec c _ s) as [s' []| |] eqn:E; try done. apply op_multi_inv in E as (_ & _ & _ & _ & M); [|done].
    by destruct (multi_targets _ _ _ _ _ _ M H).
  - destruct (exec c _ s) as [s' []| |] eqn:E; try done. apply op_ibc_recv_inv in E; [|done]. naive_solver.
  - destruct (exec c _ s) as [s' []| |] eqn:E; try done. apply op_warp_recv_inv in E; [|done]. naive_solver.
Qed.
Theorem yield_only_deliveries c s o s' : chain_ok c -> reachable c s -> exec c o s = Ok s' tt ->
  (forall x bz, o <> OpDeliver x bz) -> bal s' YieldA <= bal s YieldA.
Proof.
  intros Hc Hr E Ho. apply (yield_op c o); auto; [by apply winv_reachable|]. destruct o; try done. by eapply Ho.
Qed.

(** * Index *)
Lemma step_reachable c s o : reachable c s -> reachable c (step c s o).
Proof. intros Hr. destruct (step_cases c s o) as [->|E]; [done|]. by eapply reachable_step. Qed.
Lemma run_reachable c s l : reachable c s -> reachable c (run c s l).
Proof. revert s. induction l as [|o l IH]; intros s Hr; [done|]. rewrite run_cons. by apply IH, step_reachable. Qed.
Theorem index_monotone c s l : chain_ok c -> reachable c s -> current_index s <= current_index (run c s l).
Proof.
  intros Hc. revert s. induction l as [|o l IH]; intros s Hr; [done|]. rewrite run_cons.
  trans (current_index (step c s o)); [|by apply IH, step_reachable].
  destruct (step_cases c s o) as [->|E]; [done|].
  destruct (op_trace _ _ _ _ Hc (winv_reachable _ _ Hc Hr) E) as (ls & T & _).
  apply (ctrace_index _ _ _ T).
Qed.
Lemma carried_exclusive c bz i : carried_index c bz = Some i -> carried_token c bz = None.
Proof. unfold carried_index, carried_token. destruct (carried c bz); [|done]. by repeat case_match. Qed.
Theorem index_update c s s' x bz i : chain_ok c -> reachable c s -> carried_index c bz = Some i ->
  exec c (OpDeliver x bz) s = Ok s' tt -> current_index s < i /\ current_index s' = i.
Proof.
  intros Hc Hr Hi E. destruct (deliver_effect _ _ _ _ _ Hc (reach_w _ _ Hc Hr) E) as (n & d & _ & _ & H).
  rewrite (carried_exclusive _ _ _ Hi), Hi in H. naive_solver.
Qed.
Theorem index_refused c s x bz i : chain_ok c -> reachable c s -> carried_index c bz = Some i ->
  i <= current_index s -> rejected c s (OpDeliver x bz) /\ step c s (OpDeliver x bz) = s.
Proof.
  intros Hc Hr Hi Hle. unfold rejected, step. destruct (exec c (OpDeliver x bz) s) as [s' []| |] eqn:E; try done.
  apply (index_update c s s' x bz i) in E; try done. lia.
Qed.
Theorem index_token c s s' x bz t : chain_ok c -> reachable c s -> carried_token c bz = Some t ->
  exec c (OpDeliver x bz) s = Ok s' tt -> current_index s' = Z.max (tk_index t) (current_index s).
Proof.
  intros Hc Hr Hi E. destruct (deliver_effect _ _ _ _ _ Hc (reach_w _ _ Hc Hr) E) as (n & d & _ & _ & H).
  rewrite Hi in H. naive_solver.
Qed.

(** * Accrual *)
Theorem accrual_index c s s' x bz i : chain_ok c -> reachable c s -> carried_index c bz = Some i ->
  exec c (OpDeliver x bz) s = Ok s' tt ->
  supply s <= supply s' /\ supply s' = Z.max 0 (floor_div (total_principal s * i) unit_index) /\
  ds_yield (d_stats (st_dollar s')) = ds_yield (d_stats (st_dollar s)) + (supply s' - supply s) /\
  total_principal s' = total_principal s /\
  forall b, bal s (AUser b) <= bal s' (AUser b) /\ prin s (AUser b) <= prin s' (AUser b).
Proof.
  intros Hc Hr Hi E. pose proof (winv_reachable _ _ Hc Hr) as W.
  pose proof (solid_reachable _ _ Hc Hr) as Hs.
  destruct (deliver_inv' _ _ _ _ _ Hc (wi_wfs _ _ W) E) as (v & pl & A & H).
  pose proof Hi as Hi'. unfold carried_index in Hi'. rewrite (accepted_carried _ _ _ _ _ A) in Hi'.
  assert (Hs0 : 0 <= supply s).
  { by apply solid_supply. }
  assert (Htp : total_principal s' = total_principal s).
  { inversion H as [Ht|i' s1 Ht Hd Ha|t s1 Ht]; subst; [by rewrite Ht in Hi'| |by rewrite Ht in Hi'].
    destruct (applied_effect _ _ _ _ Ha) as (n & _ & _ & _ & _ & _ & ?); [apply W|]. done. }
  destruct (deliver_effect _ _ _ _ _ Hc (wi_wfs _ _ W) E) as (n & d & F & _ & G).
  rewrite (carried_exclusive _ _ _ Hi), Hi in G. destruct G as (_ & _ & -> & Hn).
  rewrite (carried_exclusive _ _ _ Hi) in F. destruct F as [F1 F2 F3 F4 F5 F6 F7].
  split; [lia|]. split.
  { rewrite <- quot_max; [|change (Z.quot (total_principal s * i) e12) with (present (total_principal s) i); lia].
    change (Z.quot (total_principal s * i) e12) with (present (total_principal s) i). lia. }
  split; [rewrite F4; lia|]. split; [done|].
  intros b. apply (user_funds c (OpDeliver x bz)); try done.
Qed.
Theorem accrual_token c s s' x bz t : chain_ok c -> reachable c s -> carried_token c bz = Some t ->
  current_index s < tk_index t -> exec c (OpDeliver x bz) s = Ok s' tt ->
  supply s' = Z.max 0 (floor_div (total_principal s * tk_index t) unit_index) + tk_amount t.
Proof.
  intros Hc Hr Hi Hlt E. pose proof (solid_reachable _ _ Hc Hr) as Hs.
  assert (Hs0 : 0 <= supply s).
  { by apply solid_supply. }
  destruct (deliver_effect _ _ _ _ _ Hc (reach_w _ _ Hc Hr) E) as (n & d & F & _ & G).
  rewrite Hi in F, G. destruct G as [_ G]. specialize (G Hlt). destruct F as [F1 F2 F3 F4 F5 F6 F7].
  rewrite <- quot_max; change (Z.quot (total_principal s * tk_index t) e12) with (present (total_principal s) (tk_index t)); lia.
Qed.
(** The accrual part of an index update on its own. *)
Theorem accrual_credit c s s' i : chain_ok c -> reachable c s -> accrue_yield i s = Ok s' tt ->
  let n := supply s' - supply s in
  supply s' = Z.max 0 (floor_div (total_principal s * i) unit_index) /\ 0 <= n /\
  (forall a, bal s' a = bal s a + on a YieldA n) /\ d_principal (st_dollar s') = d_principal (st_dollar s) /\
  ds_yield (d_stats (st_dollar s')) = ds_yield (d_stats (st_dollar s)) + n /\ current_index s' = i.
Proof.
  intros Hc Hr E. pose proof (reach_w _ _ Hc Hr) as W. pose proof (solid_reachable _ _ Hc Hr) as Hs.
  assert (Hs0 : 0 <= supply s).
  { by apply solid_supply. }
  assert (H : exists n, n = present (total_principal s) i - supply s /\ 0 <= n /\ s' = accrued s i n n).
  { revert E. inv_ok. eapply accrue_spec; [done|rewrite (wf_module _ _ W); lia| |done]. intros. by eexists. }
  destruct H as (n & Hn & Hn0 & ->). cbn zeta. rewrite supply_accrued by done.
  destruct (frame_accrued s i n n) as (H1 & H2 & _ & _ & H3 & _).
  replace (supply s + n - supply s) with n by lia.
  split.
  { rewrite <- quot_max; change (Z.quot (total_principal s * i) e12) with (present (total_principal s) i); lia. }
  split; [done|]. split; [intros a; rewrite on_ind; by apply bal_accrued|]. done.
Qed.

(** * Claims *)
Lemma claimable_present s a : 0 <= bal s a ->
  claimable s a = (let z := present (prin s a) (current_index s) - bal s a in if 1 <? z then z else 0).
Proof.
  intros Hb. unfold claimable, floor_div, present. change unit_index with e12. cbn zeta.
  set (q := prin s a * current_index s). clearbody q.
  assert (Hq : 0 <= q -> Z.quot q e12 = q / e12) by (intros; apply Z.quot_div_nonneg; unfold e12; lia).
  destruct (Z.le_gt_cases 0 q) as [H0|H0].
  - rewrite Hq by done. destruct (Z.leb_spec (q / e12 - bal s a) 1), (Z.ltb_spec 1 (q / e12 - bal s a)); lia.
  - assert (q / e12 <= 0) by (unfold e12; lia). assert (Z.quot q e12 <= 0) by (unfold e12; lia).
    rewrite (proj2 (Z.leb_le _ 1)) by lia. by rewrite (proj2 (Z.ltb_ge 1 _)) by lia.
Qed.
Theorem claim_pays c s s' signer a : chain_ok c -> reachable c s -> c_dec c signer = Some a ->
  exec c (OpClaimYield signer) s = Ok s' tt ->
  let y := claimable s a in
  (forall b, bal s' b = bal s b - on b YieldA y + on b a y) /\ (y <= bal s YieldA \/ y = 0) /\
  supply s' = supply s /\ st_dollar s' = st_dollar s /\ st_portal s' = st_portal s /\ st_vaults s' = st_vaults s /\
  st_world s' = st_world s.
Proof.
  intros Hc Hr Ha E. pose proof (solid_reachable _ _ Hc Hr) as [_ Hb].
  destruct (claim_inv' _ _ _ _ E) as (b & _ & Hd & _).
  assert (a = AUser b) as -> by congruence.
  destruct (claim_exact c signer s s' b Ha Hb E) as (y & Hy & _ & _ & _ & Hle & ->).
  cbn zeta. rewrite claimable_present by done. cbn zeta in Hy |- *. rewrite <- Hy.
  assert (0 <= y). { rewrite Hy. case_match; lia. }
  split; [intros; rewrite !on_ind; by apply bal_pay|]. split; [done|].
  unfold pay. destruct (0 <? y); [|done]. by rewrite send_from_yield.
Qed.
Theorem claim_accepts c s signer b : chain_ok c -> reachable c s -> c_dec c signer = Some (AUser b) ->
  d_paused (st_dollar s) = false -> c_blocked c (AUser b) = false ->
  int_range (prin s (AUser b) * current_index s) -> int_range (bal s (AUser b) + claimable s (AUser b)) ->
  claimable s (AUser b) <= bal s YieldA ->
  exists s', exec c (OpClaimYield signer) s = Ok s' tt.
Proof.
  intros Hc Hr Hd Hp Hbl F1 F2 Hle. pose proof (solid_reachable _ _ Hc Hr) as [_ Hb].
  cut (runs (exec c (OpClaimYield signer)) s (fun _ _ => True)).
  { intros R. apply runs_ok in R as (s' & [] & ? & _). eauto. }
  cbn [exec]. unfold signed. rewrite Hd. unfold claim_yield. apply runs_bind, runs_gets. rewrite Hp.
  apply runs_bind. unfold get_yield. rewrite Hd. apply runs_bind.
  eapply runs_of_ok; [apply get_yield_of_run; [done|by apply int_fits_lt]|]. rewrite claimable_present in F2, Hle by done.
  cbn zeta in F2, Hle |- *.
  set (y := if 1 <? present (prin s (AUser b)) (current_index s) - bal s (AUser b) then _ else _) in *.
  apply runs_ret. cbn [fst snd].
  assert (0 <= y). { unfold y. case_match; lia. }
  apply runs_bind. unfold new_coins. rewrite (proj2 (Z.ltb_ge y 0)) by done. apply runs_ret.
  unfold send_to_account. rewrite Hbl. unfold send_coins. destruct (Z.eqb_spec y 0) as [|Hy0]; [by apply runs_ret|].
  apply runs_bind. unfold sub_coins. apply runs_bind, runs_gets. rewrite (proj2 (Z.ltb_ge _ y)) by lia. unfold set_bal. apply runs_modify.
  apply runs_bind. unfold send_restriction. rewrite (proj2 (Z.eqb_neq y 0)) by done. rewrite bool_decide_true by done. apply runs_ret.
  apply runs_bind. unfold add_coins. apply runs_bind, runs_gets, runs_bind. eapply runs_lift.
  { apply int_chk_run. unfold bal. cbn. rewrite lookup_insert_ne by done. exact F2. }
  unfold set_bal. by apply runs_modify, runs_modify.
Qed.
Theorem claim_twice c s s' signer a : chain_ok c -> reachable c s -> c_dec c signer = Some a ->
  exec c (OpClaimYield signer) s = Ok s' tt ->
  claimable s' a = 0 /\ get_yield c signer s' = Ok s' (0, a) /\ exec c (OpClaimYield signer) s' = Ok s' tt.
Proof.
  intros Hc Hr Ha E. pose proof (solid_reachable _ _ Hc Hr) as [_ Hb].
  destruct (claim_inv' _ _ _ _ E) as (b & _ & Hd & _). assert (a = AUser b) as -> by congruence.
  pose proof (solid_reachable _ _ Hc (reachable_step _ _ _ _ Hr E)) as [_ Hb'].
  pose proof (claim_again c signer s s' b Ha Hb E) as E2.
  destruct (claim_exact c signer s' s' b Ha Hb' E2) as (y & Hy & Hf & _ & _ & _ & Hp).
  rewrite claimable_present by done. cbn zeta in Hy |- *. rewrite <- Hy.
  assert (0 <= y). { rewrite Hy. case_match; lia. }
  assert (Hy0 : y = 0).
  { assert (HB : bal s' YieldA = bal (pay s' (AUser b) y) YieldA) by (by rewrite <- Hp).
    rewrite bal_pay in HB by done. unfold ind in HB. rewrite decide_True, decide_False in HB by done. lia. }
  split; [done|]. split; [|done]. unfold get_yield. rewrite Ha. unfold bind.
  rewrite get_yield_of_run by done. cbn zeta. by rewrite <- Hy, Hy0.
Qed.
Theorem claim_paused' c s signer : d_paused (st_dollar s) = true ->
  rejected c s (OpClaimYield signer) /\ step c s (OpClaimYield signer) = s.
Proof.
  intros Hp. unfold rejected, step. destruct (exec c (OpClaimYield signer) s) as [s' []| |] eqn:E; try done.
  by apply claim_paused in E.
Qed.

(** * Settings *)
Lemma dollar_paused_op c s o s' : chain_ok c -> winv c s -> exec c o s = Ok s' tt ->
  d_paused (st_dollar s') <> d_paused (st_dollar s) ->
  o = OpSetPaused (c_authority c) (d_paused (st_dollar s')).
Proof.
  intros Hc W E Hne. destruct (administrative o) eqn:Ha.
  - pose proof (admin_inv _ _ _ _ Ha E) as R. destruct o; cbn in R; try done; try (naive_solver; fail).
  - destruct (settings_op _ _ _ _ Hc W E Ha) as [H _ _]. unfold drest in H. congruence.
Qed.
Theorem dollar_paused_by c s o : chain_ok c -> reachable c s ->
  d_paused (st_dollar (step c s o)) <> d_paused (st_dollar s) ->
  o = OpSetPaused (c_authority c) (d_paused (st_dollar (step c s o))).
Proof.
  intros Hc Hr Hne. destruct (step_cases c s o) as [E|E]; [by rewrite E in Hne|].
  eapply dollar_paused_op; eauto. by apply winv_reachable.
Qed.

(** * Funds *)
Theorem funds_safe c s o b : chain_ok c -> reachable c s -> signer_of c o <> Some (AUser b) ->
  bal s (AUser b) <= bal (step c s o) (AUser b) /\ prin s (AUser b) <= prin (step c s o) (AUser b).
Proof.
  intros Hc Hr Hs. destruct (step_cases c s o) as [->|E]; [done|].
  eapply user_funds; eauto. by apply winv_reachable.
Qed.
Theorem funds_safe_history c s l b : chain_ok c -> reachable c s ->
  Forall (fun o => signer_of c o <> Some (AUser b)) l ->
  bal s (AUser b) <= bal (run c s l) (AUser b) /\ prin s (AUser b) <= prin (run c s l) (AUser b).
Proof.
  intros Hc. revert s. induction l as [|o l IH]; intros s Hr H; [done|]. apply Forall_cons in H as [Ho H].
  rewrite run_cons. destruct (funds_safe _ s o b Hc Hr Ho). destruct (IH (step c s o)); [by apply step_reachable|done|]. lia.
Qed.

(** * Failed messages *)
Theorem failed_skipped c s l : run c s l = run c s (successful c s l) /\
  forall o, rejected c s o -> run c s (o :: l) = run c s l.
Proof.
  split.
  - revert s. induction l as [|o l IH]; intros s; [done|]. cbn [successful]. rewrite run_cons.
    destruct (succeeds c s o) eqn:E; [rewrite run_cons; apply IH|]. rewrite <- IH. f_equal. unfold succeeds, step in *. by destruct (exec c o s).
  - intros o Ho. rewrite run_cons. f_equal. unfold rejected, step in *. by destruct (exec c o s).
Qed.

(** * Accrued yield *)
Theorem accrual_history c s0 l : chain_ok c -> fresh c s0 ->
  Forall (fun s => ds_yield (d_stats (st_dollar s)) + supply s < 2 ^ 256) (history c s0 l) ->
  let s := run c s0 l in
  0 <= ds_yield (d_stats (st_dollar s)) /\
  supply s = supply s0 + count_ops (issued_amount c) c s0 l - count_ops (fun _ o => redeemed_amount s0 o) c s0 l
             + ds_yield (d_stats (st_dollar s)).
Proof.
  intros Hc Hf H. pose proof (accrual_run c s0 l Hc (winv_fresh _ _ Hf) (solid_fresh _ _ Hf)) as R.
  assert (ds_yield (d_stats (st_dollar s0)) = 0) as H0 by (by rewrite (fresh_stats _ _ Hf)).
  destruct R as [R1 R2]; [lia|done|]. cbn zeta. split; [lia|].
  assert (Hcnt : forall l s, count_ops (net_issued c) c s l = count_ops (issued_amount c) c s l - count_ops (fun _ o => redeemed_amount s0 o) c s l).
  { clear. induction l as [|o l IH]; intros s; cbn; [done|]. rewrite IH. unfold net_issued. destruct (succeeds c s o); unfold redeemed_amount; lia. }
  rewrite Hcnt in R2. lia.
Qed.
Theorem accrual_monotone c s l : chain_ok c -> reachable c s ->
  ds_yield (d_stats (st_dollar s)) <= ds_yield (d_stats (st_dollar (run c s l))).
Proof.
  intros Hc. revert s. induction l as [|o l IH]; intros s Hr; [done|]. rewrite run_cons.
  trans (ds_yield (d_stats (st_dollar (step c s o)))); [|by apply IH, step_reachable].
  destruct (step_cases c s o) as [->|E]; [done|]. pose proof (winv_reachable _ _ Hc Hr) as W.
  destruct (match o with OpDeliver _ _ => true | _ => false end) eqn:Eo.
  - destruct o; try done. destruct (deliver_effect _ _ _ _ _ Hc (wi_wfs _ _ W) E) as (n & d & [] & _). lia.
  - assert (Hd : match o with OpDeliver _ _ => False | _ => True end) by (by destruct o).
    destruct (yield_stat_op _ _ _ _ Hc W E Hd). lia.
Qed.
