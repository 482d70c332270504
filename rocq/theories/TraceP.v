(** Every successful message is a sequence of a few kinds of elementary effects on
    balances, principal, index and statistics. *)
From Verif Require Export VaultsP.

(** * Positions *)
Lemma entries_perm s a v : position_entries s a v ≡ₚ
  omap (fun kv : (addr * Z * Z) * position => if decide (kv.1.1 = (a, v)) then Some (kv.1.2, kv.2) else None)
      (map_to_list (v_positions (st_vaults s))).
Proof. apply merge_sort_Permutation. Qed.
Lemma elem_entries s a v t p : (t, p) ∈ position_entries s a v <-> v_positions (st_vaults s) !! (a, v, t) = Some p.
Proof.
  rewrite entries_perm, elem_of_list_omap. split.
  - intros ([k q] & Hin%elem_of_map_to_list & H). cbn in H. case_decide as E; [|done].
    destruct k as [[? ?] ?]; cbn in *. simplify_eq. done.
  - intros H. exists ((a, v, t), p). split; [by apply elem_of_map_to_list|]. cbn. by rewrite decide_True.
Qed.
Lemma elem_positions s a v p : p ∈ positions_of s a v <-> exists t, v_positions (st_vaults s) !! (a, v, t) = Some p.
Proof.
  unfold positions_of. rewrite elem_of_list_fmap. split.
  - intros ([t q] & -> & H%elem_entries). eauto.
  - intros [t H%elem_entries]. exists (t, p). auto.
Qed.
Lemma omap_fst_nodup (m : gmap (addr * Z * Z) position) a v :
  NoDup (omap (fun kv : (addr * Z * Z) * position => if decide (kv.1.1 = (a, v)) then Some (kv.1.2, kv.2) else None)
      (map_to_list m)).*1.
Proof.
  pose proof (NoDup_fst_map_to_list m) as H.
  induction (map_to_list m) as [|[k q] l IH]; [constructor|]. cbn in H. apply NoDup_cons in H as [H1 H2].
  cbn. case_decide as E; [|auto]. cbn. constructor; [|auto].
  intros Hin. apply H1. apply elem_of_list_fmap in Hin as ([t p] & Ht & Hin). cbn in Ht. subst.
  apply elem_of_list_omap in Hin as ([k' q'] & Hin & Hk). cbn in Hk. case_decide as E'; [|done].
  assert (k = k') as ->. { destruct k as [[? ?] ?], k' as [[? ?] ?]; cbn in *; simplify_eq; done. }
  by apply elem_of_list_fmap_1 with (f := fst) in Hin.
Qed.
Lemma entries_nodup s a v : NoDup (position_entries s a v).*1.
Proof. rewrite entries_perm. apply omap_fst_nodup. Qed.
Global Instance zkey_le_total {A} : Total (zkey_le (A := A)).
Proof. intros x y. unfold zkey_le. lia. Qed.
Global Instance zkey_le_trans {A} : Transitive (zkey_le (A := A)).
Proof. intros x y z. unfold zkey_le. lia. Qed.
Lemma entries_sorted s a v : StronglySorted zkey_le (position_entries s a v).
Proof. apply (StronglySorted_merge_sort _). Qed.

(** Sum of a user's positions in a vault. *)
Definition psum (f : position -> Z) (a : addr) (v : Z) (m : gmap (addr * Z * Z) position) : Z :=
  fsum (fun k p => if decide (k.1 = (a, v)) then f p else 0) m.
Lemma list_sum_fmap {A B} (g : A -> B) (f : B -> Z) l : list_sum f (g <$> l) = list_sum (fun a => f (g a)) l.
Proof. unfold list_sum. induction l; cbn; lia. Qed.
Lemma positions_sum f s a v : list_sum f (positions_of s a v) = psum f a v (v_positions (st_vaults s)).
Proof.
  unfold positions_of, psum. rewrite list_sum_fmap.
  rewrite (list_sum_perm _ _ _ (entries_perm s a v)), fsum_list.
  unfold list_sum. induction (map_to_list (v_positions (st_vaults s))) as [|[k p] l IH]; [done|].
  cbn. case_decide; cbn; rewrite IH; lia.
Qed.

(** Well-formed positions. *)
Definition pos_wf (s : state) : Prop := forall k p, v_positions (st_vaults s) !! k = Some p ->
  0 < pos_amount p /\ pos_time p = k.2 /\ 0 < pos_index p <= current_index s /\
  (k.1.2 = STAKED \/ k.1.2 = FLEXIBLE) /\ (exists b, k.1.1 = AUser b) /\ k.2 <= x_now (st_world s).

Lemma pos_wf_positive s a v : pos_wf s -> Forall (fun p => 0 < pos_amount p) (positions_of s a v).
Proof.
  intros H. apply Forall_forall. intros p [t Hp]%elem_positions. by apply H in Hp as [? _].
Qed.

(** * Elementary effects *)
Definition same_core (s s' : state) : Prop :=
  st_bank s' = st_bank s /\ current_index s' = current_index s /\
  d_principal (st_dollar s') = d_principal (st_dollar s) /\ d_stats (st_dollar s') = d_stats (st_dollar s).
Lemma same_core_refl s : same_core s s.
Proof. repeat split. Qed.
Lemma same_core_trans s s' s'' : same_core s s' -> same_core s' s'' -> same_core s s''.
Proof. unfold same_core. intuition congruence. Qed.
Lemma same_core_sym s s' : same_core s s' -> same_core s' s.
Proof. unfold same_core. intuition congruence. Qed.
Global Hint Resolve same_core_refl : core.

Inductive label :=
| LSend (f t : addr) (amt : Z)
| LPay (a : addr) (y : Z)
| LStaked (y yp : Z)
| LRelay (t : addr) (y : Z)
| LAccrue (i n d : Z)
| LIssue (to : addr) (amt : Z)
| LBurn (from : addr) (amt : Z)
| LTally (n : Z).

(** The holders statistic alone changes (payments with several outputs). *)
Definition tallied (s : state) (n : Z) : state := s <| st_dollar; d_stats; ds_holders := n |>.
Notation holders s := (ds_holders (d_stats (st_dollar s))).

Definition capply (l : label) (s : state) : state :=
  match l with
  | LSend f t amt => send_result s f t amt
  | LPay a y => send_result s YieldA a y
  | LStaked y yp => shiftp (send_result s YieldA FlexibleA y) yp
  | LRelay t y => send_result (send_result s YieldA StakedA y) StakedA t y
  | LAccrue i n d => accrued s i n d
  | LIssue to amt => issued s to amt
  | LBurn from amt => burned s from amt
  | LTally n => tallied s n
  end.

Definition ordinary (a : addr) : Prop := a <> ModuleA /\ a <> YieldA.
Definition cpre (l : label) (s : state) : Prop :=
  match l with
  | LSend f t amt => 0 < amt <= bal s f /\ ordinary f /\ ordinary t
  | LPay a y => 0 < y <= bal s YieldA /\ y = yield_of s a /\ ordinary a
  | LStaked y yp => 0 < y <= bal s YieldA /\ y = yield_of s StakedA /\ yield_principal y (current_index s) = POk yp
  | LRelay t y => 0 < y <= bal s YieldA /\ y = yield_of s StakedA /\ ordinary t
  | LAccrue i n d => current_index s < i < 2 ^ 63 /\ n = present (total_principal s) i - supply s /\ 0 <= n /\
      (d = n \/ d = 0 /\ int_fits (ds_yield (d_stats (st_dollar s)) + n) = false)
  | LIssue to amt => 0 < amt /\ to <> ModuleA
  | LBurn from amt => 0 < amt <= bal s from /\ ordinary from
  | LTally n => 0 <= holders s ->
      0 <= n <= holders s /\ (holders s < 2 ^ 64 -> holders s - 1 <= n) \/ holders s = 0 /\ n = 1 /\ exists f, ordinary f /\ 0 < bal s f
  end.

Inductive ctrace : list label -> state -> state -> Prop :=
| ct_nil s s' : same_core s s' -> ctrace [] s s'
| ct_cons l ls s s1 s2 : cpre l s -> same_core (capply l s) s1 -> ctrace ls s1 s2 -> ctrace (l :: ls) s s2.

Lemma core_bal s s' a : same_core s s' -> bal s' a = bal s a.
Proof. intros (H & _). unfold bal. by rewrite H. Qed.
Lemma core_prin s s' a : same_core s s' -> prin s' a = prin s a.
Proof. intros (_ & _ & H & _). unfold prin. by rewrite H. Qed.
Lemma core_index s s' : same_core s s' -> current_index s' = current_index s.
Proof. by intros (_ & H & _). Qed.
Lemma core_supply s s' : same_core s s' -> supply s' = supply s.
Proof. intros (H & _). unfold supply. by rewrite H. Qed.
Lemma core_tp s s' : same_core s s' -> total_principal s' = total_principal s.
Proof. intros (_ & _ & _ & H). unfold total_principal. by rewrite H. Qed.
Lemma core_yield s s' a : same_core s s' -> yield_of s' a = yield_of s a.
Proof.
  intros H. unfold yield_of. by rewrite (core_bal _ _ _ H), (core_prin _ _ _ H), (core_index _ _ H).
Qed.

Lemma core_send s s' f t amt : same_core s s' -> same_core (send_result s f t amt) (send_result s' f t amt).
Proof.
  intros (H1 & H2 & H3 & H4). unfold same_core, send_result, supply, total_principal, current_index in *; cbn.
  by rewrite H1, H2, H3, H4.
Qed.
Lemma core_shift s s' yp : same_core s s' -> same_core (shiftp s yp) (shiftp s' yp).
Proof.
  intros (H1 & H2 & H3 & H4). unfold same_core, shiftp, current_index in *; cbn. by rewrite H1, H2, H3, H4.
Qed.
Lemma core_mint s s' amt : same_core s s' -> same_core (mint_result s amt) (mint_result s' amt).
Proof.
  intros (H1 & H2 & H3 & H4). unfold same_core, mint_result, supply, current_index in *; cbn. by rewrite H1, H2, H3, H4.
Qed.
Lemma core_burn s s' amt : same_core s s' -> same_core (burn_result s amt) (burn_result s' amt).
Proof.
  intros (H1 & H2 & H3 & H4). unfold same_core, burn_result, supply, current_index in *; cbn. by rewrite H1, H2, H3, H4.
Qed.
Lemma core_setidx s s' i : same_core s s' -> same_core (s <| st_dollar; d_index := i |>) (s' <| st_dollar; d_index := i |>).
Proof. intros (H1 & H2 & H3 & H4). unfold same_core, current_index in *; cbn. by rewrite H1, H3, H4. Qed.

Lemma core_apply l s s' : same_core s s' -> same_core (capply l s) (capply l s').
Proof.
  intros H. destruct l; cbn [capply].
  - by apply core_send.
  - by apply core_send.
  - by apply core_shift, core_send.
  - by apply core_send, core_send.
  - destruct H as (H1 & H2 & H3 & H4). unfold accrued. destruct (0 <? n);
      unfold same_core, send_result, mint_result, supply, total_principal, current_index in *; cbn -[addz];
      by rewrite H1, H3, H4.
  - unfold issued. destruct (0 <? amt); [|done]. by apply core_send, core_mint.
  - unfold burned. destruct (0 <? amt); [|done]. by apply core_burn, core_send.
  - destruct H as (H1 & H2 & H3 & H4). unfold tallied, same_core, current_index in *. cbn. by rewrite H1, H2, H3, H4.
Qed.
Lemma core_pre l s s' : same_core s s' -> cpre l s -> cpre l s'.
Proof.
  intros H. destruct l; cbn [cpre]; rewrite ?(core_bal _ _ _ H), ?(core_yield _ _ _ H), ?(core_index _ _ H),
    ?(core_tp _ _ H), ?(core_supply _ _ H); auto.
  - destruct H as (_ & _ & _ & ->). auto.
  - pose proof (fun a => core_bal _ _ a H) as Hb. destruct H as (_ & _ & _ & ->). intros H Hn.
    destruct (H Hn) as [?|(? & ? & f & ? & ?)]; [auto|]. right. split; [done|]. split; [done|]. exists f. by rewrite Hb.
Qed.

Lemma ctrace_core ls s s' s'' : same_core s s' -> ctrace ls s' s'' -> ctrace ls s s''.
Proof.
  intros H Ht. revert s H. induction Ht as [s' s'' H'|l ls s' s1 s2 Hp Hs Ht IH]; intros s H.
  - apply ct_nil. by eapply same_core_trans.
  - eapply ct_cons; [|by eapply same_core_trans; [apply core_apply|]|exact Ht].
    apply same_core_sym in H. by eapply core_pre.
Qed.
Lemma ctrace_app ls ls' s s1 s2 : ctrace ls s s1 -> ctrace ls' s1 s2 -> ctrace (ls ++ ls') s s2.
Proof.
  induction 1 as [s s1 H|l ls s s0 s1 Hp Hs Ht IH]; intros H2; cbn.
  - by eapply ctrace_core.
  - econstructor; eauto.
Qed.
Lemma ctrace_one l s : cpre l s -> ctrace [l] s (capply l s).
Proof. intros. econstructor; eauto. by apply ct_nil. Qed.
Lemma ctrace_core_r ls s s' s'' : ctrace ls s s' -> same_core s' s'' -> ctrace ls s s''.
Proof. intros H1 H2. rewrite <- (app_nil_r ls). eapply ctrace_app; eauto. by apply ct_nil. Qed.

(** Induction principle for properties of the core. *)
Lemma ctrace_ind_core (P : state -> Prop) :
  (forall s s', same_core s s' -> P s -> P s') ->
  (forall l s, cpre l s -> P s -> P (capply l s)) ->
  forall ls s s', ctrace ls s s' -> P s -> P s'.
Proof. intros Hc Hl ls s s'. induction 1; eauto. Qed.

(** Two-state version: a reflexive transitive relation. *)
Lemma ctrace_rel (R : state -> state -> Prop) (A : label -> Prop) :
  (forall s s', same_core s s' -> R s s') -> (forall s s' s'', R s s' -> R s' s'' -> R s s'') ->
  (forall l s, A l -> cpre l s -> R s (capply l s)) ->
  forall ls s s', ctrace ls s s' -> Forall A ls -> R s s'.
Proof.
  intros Hc Ht Hl ls s s'. induction 1 as [|l ls s s1 s2 Hp Hs Htr IH]; intros HA; [auto|].
  apply Forall_cons in HA as [HA1 HA2]. eapply Ht; [|by apply IH].
  eapply Ht; [by apply Hl|auto].
Qed.

(** * Labels of each message *)
Definition allowed (c : config) (o : op) (l : label) : Prop :=
  match o with
  | OpClaimYield signer => exists b y, c_dec c signer = Some (AUser b) /\ l = LPay (AUser b) y
  | OpLock signer v amt => exists b t z, c_dec c signer = Some (AUser b) /\ amt = Some z /\
      l = LSend (AUser b) (position_account signer v t) z
  | OpUnlock signer v amt => exists b, c_dec c signer = Some (AUser b) /\
      ((v = STAKED /\ exists z, l = LSend StakedA (AUser b) z) \/
       (v = FLEXIBLE /\ exists t z, (l = LSend FlexibleA (AUser b) z \/ l = LPay (position_account signer v t) z \/
         l = LSend (position_account signer v t) (AUser b) z)))
  | OpDeliver x bz => match l with
      | LPay a _ => module_holder a
      | LStaked _ _ | LRelay _ _ | LAccrue _ _ _ => True
      | LIssue to _ => c_blocked c to = false
      | LSend f t _ => f = t /\ (f = WarpA \/ exists chan, f = AEscrow transfer_port chan)
      | LBurn _ _ | LTally _ => False
      end
  | OpTransfer _ signer _ _ _ amt => exists b z, c_dec c signer = Some (AUser b) /\ amt = Some z /\ l = LBurn (AUser b) z
  | OpSend f t amt => l = LSend f t amt /\ external f = true
  | OpMultiSend f outs => external f = true /\
      ((exists t a, (t, a) ∈ outs /\ l = LSend f t a) \/ (exists n, l = LTally n))
  | OpIbcSend _ f chan _ amt => l = LSend f (AEscrow transfer_port chan) amt /\ external f = true
  | OpIbcRecv chan rc amt => exists a, c_dec c rc = Some a /\ l = LSend (AEscrow transfer_port chan) a amt
  | OpIbcAck _ _ | OpIbcTimeout _ => exists chan a z, l = LSend (AEscrow transfer_port chan) a z
  | OpWarpSend _ f _ _ _ amt => l = LSend f WarpA amt /\ external f = true
  | OpWarpRecv _ t amt => l = LSend WarpA t amt
  | _ => False
  end.

Record winv (c : config) (s : state) : Prop := { wi_wfs : wfs c s; wi_pos : pos_wf s }.

Lemma signed_ok c signer m s s' : signed c signer m s = Ok s' tt -> m s = Ok s' tt /\
  ((exists b, c_dec c signer = Some (AUser b)) \/ c_dec c signer = None).
Proof. unfold signed. destruct (c_dec c signer) as [[]|]; try discriminate; eauto. Qed.

Lemma user_ordinary b : ordinary (AUser b).
Proof. done. Qed.
Global Hint Resolve user_ordinary : core.
Lemma holder_ordinary a : module_holder a -> ordinary a.
Proof. intros [->|[->|[->|[? ->]]]]; done. Qed.
Lemma external_ordinary a : external a = true -> ordinary a.
Proof. intros H. split; apply external_not_module; auto. Qed.

Lemma pay_trace s a y : ordinary a -> y = yield_of s a -> y <= bal s YieldA \/ y = 0 ->
  exists ls, ctrace ls s (pay s a y) /\ Forall (fun l => l = LPay a y) ls.
Proof.
  intros Ha Hy Hb. unfold pay. destruct (Z.ltb_spec 0 y).
  - exists [LPay a y]. split; [|by apply Forall_singleton]. apply (ctrace_one (LPay a y)). cbn. split; [lia|auto].
  - exists []. split; [|constructor]. by apply ct_nil.
Qed.

Lemma upd_trace c x bz i s s' : upd c i s s' -> good_collector s ->
  exists ls, ctrace ls s s' /\ Forall (allowed c (OpDeliver x bz)) ls.
Proof.
  intros H Hg. destruct H.
  - exists [LPay a y]. split; [|by apply Forall_singleton]. apply (ctrace_one (LPay a y)). cbn.
    split; [done|]. split; [done|]. by apply holder_ordinary.
  - destruct (pay_trace s FlexibleA fy) as (ls & Ht & HF); [done|done|done|]. exists ls. subst s1. split.
    + eapply ctrace_core_r; [exact Ht|]. repeat split.
    + eapply Forall_impl; [exact HF|]. intros ? ->. cbn. unfold module_holder; auto.
  - destruct (pay_trace s FlexibleA fy) as (ls & Ht & HF); [done|done|done|]. exists (ls ++ [LStaked sy yp]). split.
    + eapply ctrace_app; [exact Ht|]. subst s1. eapply ctrace_core_r; [apply (ctrace_one (LStaked sy yp))|repeat split].
      cbn. auto.
    + apply Forall_app. split; [|by apply Forall_singleton].
      eapply Forall_impl; [exact HF|]. intros ? ->. cbn. unfold module_holder; auto.
  - exists [LRelay (v_collector (st_vaults s)) y]. split; [|by apply Forall_singleton].
    apply (ctrace_one (LRelay (v_collector (st_vaults s)) y)). cbn. auto.
  - exists [LSend a a amt]. split; [|apply Forall_singleton; cbn; auto]. apply (ctrace_one (LSend a a amt)). cbn.
    assert (ordinary a) by (destruct H as [->|[? ->]]; done). auto.
  - exists []. split; [|constructor]. apply ct_nil. destruct H as (E & R & F & T & D & -> & _). repeat split.
Qed.
Lemma upds_trace c x bz i s s' : upds c i s s' -> good_collector s ->
  exists ls, ctrace ls s s' /\ Forall (allowed c (OpDeliver x bz)) ls.
Proof.
  induction 1 as [s|s s1 s2 H1 H2 IH]; intros Hg.
  - exists []. split; [by apply ct_nil|constructor].
  - destruct (upd_trace c x bz _ _ _ H1 Hg) as (l1 & T1 & F1).
    assert (Hg1 : good_collector s1).
    { destruct (upd_frame _ _ _ _ H1 Hg) as (_ & _ & _ & (E & _) & _). unfold good_collector. by rewrite E. }
    destruct (IH Hg1) as (l2 & T2 & F2). exists (l1 ++ l2). split; [by eapply ctrace_app|by apply Forall_app].
Qed.
Lemma accrued_good s i n d : good_collector s -> good_collector (accrued s i n d).
Proof. unfold good_collector. by destruct (frame_accrued s i n d) as (_&_&_&_&_&_&_&_&_&_& -> & _). Qed.
Lemma applied_trace c x bz i s s' : index_applied c i s s' -> i < 2 ^ 63 -> good_collector s ->
  exists ls, ctrace ls s s' /\ Forall (allowed c (OpDeliver x bz)) ls.
Proof.
  intros (Hi & n & Hn & Hn0 & Hu) Hi2 Hg.
  destruct (upds_trace c x bz _ _ _ Hu (accrued_good _ _ _ _ Hg)) as (ls & T & F).
  exists (LAccrue i n n :: ls). split; [|constructor; done].
  econstructor; [|apply same_core_refl|exact T]. cbn. repeat split; auto.
Qed.
Lemma tried_trace c x bz i s s' : index_tried c i s s' -> i < 2 ^ 63 -> good_collector s ->
  exists ls, ctrace ls s s' /\ Forall (allowed c (OpDeliver x bz)) ls.
Proof.
  intros [[_ ->]|(Hi & n & d & Hn & Hn0 & Hd & Hu)] Hi2 Hg.
  { exists []. split; [by apply ct_nil|constructor]. }
  destruct (upds_trace c x bz _ _ _ Hu (accrued_good _ _ _ _ Hg)) as (ls & T & F).
  exists (LAccrue i n d :: ls). split; [|constructor; done].
  econstructor; [|apply same_core_refl|exact T]. cbn. repeat split; auto. naive_solver.
Qed.

Lemma wrap_i64_lt z : wrap_i64 z < 2 ^ 63.
Proof. unfold wrap_i64. pose proof (Z.mod_pos_bound (z + 2 ^ 63) (2 ^ 64) ltac:(lia)). lia. Qed.
Lemma decode_index_lt pl i d : decode_index_payload pl = POk (i, d) -> i < 2 ^ 63.
Proof.
  unfold decode_index_payload, pbind. destruct (of_slice _) as [x| |]; try discriminate.
  destruct (of_slice _) as [y| |]; try discriminate. intros [= <- _]. apply wrap_i64_lt.
Qed.
Lemma decode_token_lt pl t : decode_token_payload pl = POk t -> tk_index t < 2 ^ 63.
Proof.
  unfold decode_token_payload, pbind. destruct (parse_ntt pl) as [n| |]; try discriminate.
  all: match goal with |- context [decode_additional ?z] => destruct (decode_additional z) as [[i tk]| |] eqn:E end; try discriminate.
  all: destruct (of_slice _) as [y| |]; try discriminate; intros [= <-]; cbn [tk_index fst]; try lia.
  all: unfold decode_additional, pbind in E; destruct (_ <? _); try discriminate;
    destruct (of_slice _) as [u| |]; try discriminate; destruct (of_slice _) as [w| |]; try discriminate;
    injection E as <- _; apply wrap_i64_lt.
Qed.

Lemma handled_trace c x bz pl s s' : handled c pl s s' -> good_collector s ->
  exists ls, ctrace ls s s' /\ Forall (allowed c (OpDeliver x bz)) ls.
Proof.
  intros H Hg. destruct H as [H|i s' H Hd Ha|t s1 H Hd Hc Ht Hi Ha Hb Hm].
  - exists []. split; [by apply ct_nil|constructor].
  - eapply applied_trace; eauto. by eapply decode_index_lt.
  - destruct (tried_trace c x bz _ _ _ Hi (decode_token_lt _ _ Hd) Hg) as (ls & T & F).
    set (to := c_acct c _) in *. unfold issued at 1. destruct (Z.ltb_spec 0 (tk_amount t)).
    + exists (ls ++ [LIssue to (tk_amount t)]). split; [|apply Forall_app; split; [done|by apply Forall_singleton]].
      eapply ctrace_app; [exact T|]. assert (E := ctrace_one (LIssue to (tk_amount t)) s1).
      cbn [capply] in E. unfold issued in E. rewrite (proj2 (Z.ltb_lt 0 (tk_amount t))) in E by lia.
      apply E. by split.
    + exists ls. auto.
Qed.

Lemma failed_trace c s p s' : failed_packet c s p s' ->
  exists ls, ctrace ls s s' /\ Forall (fun l => exists a z, l = LSend (AEscrow transfer_port (pk_chan p)) a z) ls.
Proof.
  unfold failed_packet. destruct (is_usdn c p).
  - intros (a & z & rc & Hp & Hz & Ha & ->). exists [LSend (AEscrow transfer_port (pk_chan p)) a z].
    split; [|apply Forall_singleton; eauto].
    set (s1 := if is_yield_packet c p then _ else s).
    apply ctrace_core with s1; [subst s1; destruct (is_yield_packet c p); repeat split|].
    apply (ctrace_one (LSend (AEscrow transfer_port (pk_chan p)) a z)). cbn.
    split; [subst s1; destruct (is_yield_packet c p); exact Hz|]. split; [done|].
    destruct Ha as [Ha| ->]; [by apply external_ordinary|done].
  - intros ->. exists []. split; [by apply ct_nil|constructor].
Qed.

Lemma xfer_trace s f t amt : ordinary f -> ordinary t -> amt <= bal s f \/ amt = 0 ->
  exists ls, ctrace ls s (xfer s f t amt) /\ Forall (fun l => l = LSend f t amt) ls.
Proof.
  intros. unfold xfer. destruct (Z.ltb_spec 0 amt).
  - exists [LSend f t amt]. split; [|by apply Forall_singleton]. apply (ctrace_one (LSend f t amt)). cbn.
    split; [lia|auto].
  - exists []. split; [by apply ct_nil|constructor].
Qed.

Definition unl_label (signer : string) (a : addr) (v : Z) (l : label) : Prop :=
  (v <> FLEXIBLE /\ exists z, l = LSend StakedA a z) \/
  (v = FLEXIBLE /\ exists t z, (l = LSend FlexibleA a z \/ l = LPay (position_account signer v t) z \/
         l = LSend (position_account signer v t) a z)).

Lemma rewards_rel_trace a p pp s s' rew : ordinary a -> rewards_rel a p pp s s' rew ->
  exists ls, ctrace ls s s' /\ Forall (fun l => exists z, l = LSend FlexibleA a z) ls.
Proof.
  intros Ha [Hle|tot Hp Ht Hn Hb].
  - exists []. split; [by apply ct_nil|constructor].
  - unfold rewarded. rewrite <- Ht.
    destruct (xfer_trace (set_rewards s (settle_map (current_index s) pp (pos_index p) (v_rewards (st_vaults s)))) FlexibleA a tot)
      as (ls & T & F); auto; [done|].
    exists ls. split; [|eapply Forall_impl; [exact F|]; intros ? ->; eauto].
    eapply ctrace_core; [|exact T]. repeat split.
Qed.

Lemma unl1_trace signer a v p part s s' : ordinary a -> 0 < part -> unl1 signer a v p part s s' ->
  exists ls, ctrace ls s s' /\ Forall (unl_label signer a v) ls.
Proof.
  intros Ha Hpos [Hv Hb|s2 rew y Hv Hr Hy Hyb Hb]; destruct (pacct_not signer v p) as (? & ? & ? & ?).
  - exists [LSend (pacct signer v p) a part]. split.
    + eapply ctrace_core_r; [apply (ctrace_one (LSend (pacct signer v p) a part))|repeat split]. cbn.
      split; [lia|]. split; [by split|auto].
    + apply Forall_singleton. left. split; [done|]. exists part. f_equal.
      unfold pacct, position_account, position_account_name. by rewrite (proj2 (Z.eqb_neq v FLEXIBLE)).
  - destruct (rewards_rel_trace _ _ _ _ _ _ Ha Hr) as (l1 & T1 & F1).
    destruct (pay_trace (add_dist s2 rew) (pacct signer v p) y) as (l2 & T2 & F2); auto; [by split|].
    pose proof (yield_of_nonneg (add_dist s2 rew) (pacct signer v p)).
    exists (l1 ++ l2 ++ [LSend (pacct signer v p) a (part + y)]). split.
    + eapply ctrace_core; [|eapply ctrace_app; [exact T1|]].
      { repeat split. }
      eapply ctrace_core; [|eapply ctrace_app; [exact T2|]].
      { repeat split. }
      eapply ctrace_core_r; [apply (ctrace_one (LSend (pacct signer v p) a (part + y)))|repeat split].
      cbn. split; [lia|]. split; [by split|auto].
    + apply Forall_app. split; [eapply Forall_impl; [exact F1|]|apply Forall_app; split; [eapply Forall_impl; [exact F2|]|apply Forall_singleton]].
      * intros ? [z ->]. right. split; [done|]. exists 0, z. auto.
      * intros ? ->. right. split; [done|]. exists (pos_time p), y. auto.
      * right. split; [done|]. exists (pos_time p), (part + y). auto.
Qed.

Lemma part_pos p rem : 0 < pos_amount p -> 0 <= rem -> rem <> 0 -> 0 < part_of p rem <= rem /\ part_of p rem <= pos_amount p.
Proof. unfold part_of. intros. destruct (Z.ltb_spec rem (pos_amount p)); lia. Qed.

Lemma unls_trace signer a v l rem s rem' d s' : ordinary a -> Forall (fun p => 0 < pos_amount p) l -> 0 <= rem ->
  unls signer a v l rem s rem' d s' ->
  exists ls, ctrace ls s s' /\ Forall (unl_label signer a v) ls.
Proof.
  intros Ha HF Hr H. revert HF Hr. induction H as [rem s|p l s|p l rem s s1 s2 rem' d Hne H1 H2 IH]; intros HF Hr.
  - exists []. split; [by apply ct_nil|constructor].
  - exists []. split; [by apply ct_nil|constructor].
  - apply Forall_cons in HF as [Hp HF]. destruct (part_pos p rem Hp Hr Hne) as [Hpp _].
    destruct (unl1_trace _ _ _ _ _ _ _ Ha (proj1 Hpp) H1) as (l1 & T1 & F1).
    destruct (IH HF ltac:(lia)) as (l2 & T2 & F2). exists (l1 ++ l2).
    split; [by eapply ctrace_app|by apply Forall_app].
Qed.

Lemma lock_core s a pa v amt : same_core (send_result s a pa amt) (lock_result s a pa v amt).
Proof. unfold lock_result, lock_state, with_stats, add_flex. destruct (v =? FLEXIBLE); repeat split. Qed.

Lemma modify_frame (f : state -> state) s s' u : modify f s = Ok s' u -> s' = f s.
Proof. unfold modify. congruence. Qed.

(** Messages that only touch settings or the environment. *)
Definition administrative (o : op) : bool :=
  match o with
  | OpTime _ | OpEndSeason _ | OpSetPaused _ _ | OpSetYieldRecipient _ _ _ _ | OpVaultsSetPaused _ _ | OpPortalSetPaused _ _
  | OpSetPeer _ _ _ _ | OpSetBridgingPath _ _ _ _ | OpTransferOwnership _ _ | OpIbcSendOther _ _ | OpChannelOpen _
  | OpWarpToken _ | OpWarpRouters _ _ => true
  | _ => false
  end.

(** What they do, exactly. *)
Definition admin_result (c : config) (o : op) (s s' : state) : Prop :=
  match o with
  | OpTime dt => 0 <= dt /\ s' = s <| st_world; x_now := x_now (st_world s) + dt |>
  | OpEndSeason a => a <> ModuleA /\ a <> YieldA /\ s' = s <| st_vaults; v_ended := true |> <| st_vaults; v_collector := a |>
  | OpSetPaused signer b => signer = c_authority c /\ s' = s <| st_dollar; d_paused := b |>
  | OpSetYieldRecipient signer p id r => signer = c_authority c /\
      (p = IBC -> id ∈ x_channels (st_world s)) /\
      (p = HYPERLANE -> exists h d, c_hex c id = Some h /\ is_Some (x_tokens (st_world s) !! internal_id h) /\
          x_routers (st_world s) !! internal_id h = Some [d]) /\
      s' = s <| st_dollar; d_recipients := <[(p, id) := r]> (d_recipients (st_dollar s)) |>
  | OpVaultsSetPaused signer p => signer = c_authority c /\ 0 <= p <= 3 /\ s' = s <| st_vaults; v_paused := p |>
  | OpPortalSetPaused signer b => signer = p_owner (st_portal s) /\ p_owner (st_portal s) <> ""%string /\
      s' = s <| st_portal; p_paused := b |>
  | OpSetPeer signer chain t m => signer = p_owner (st_portal s) /\ p_owner (st_portal s) <> ""%string /\
      chain <> 0 /\ chain <> c_chain c /\ blen t = 32 /\ blen m = 32 /\ t <> empty32 /\ m <> empty32 /\
      s' = s <| st_portal; p_peers := <[chain := mk_peer t m]> (p_peers (st_portal s)) |>
  | OpSetBridgingPath signer chain tok b => signer = p_owner (st_portal s) /\ p_owner (st_portal s) <> ""%string /\
      chain <> c_chain c /\ blen tok = 32 /\ tok <> empty32 /\
      s' = s <| st_portal; p_paths := <[(chain, tok) := b]> (p_paths (st_portal s)) |>
  | OpTransferOwnership signer o => signer = p_owner (st_portal s) /\ p_owner (st_portal s) <> ""%string /\
      is_Some (c_dec c o) /\ o <> signer /\ s' = s <| st_portal; p_owner := o |>
  | OpIbcSendOther ok p => is_usdn c p = false /\ ok = true /\ s' = push s p
  | OpChannelOpen chan => s' = s <| st_world; x_channels := {[chan]} ∪ x_channels (st_world s) |>
  | OpWarpToken tok => x_tokens (st_world s) !! tok = None /\
      s' = s <| st_world; x_tokens := <[tok := 0]> (x_tokens (st_world s)) |>
  | OpWarpRouters tok ds => s' = s <| st_world; x_routers := <[tok := ds]> (x_routers (st_world s)) |>
  | _ => False
  end.

Lemma ensure_owner_spec signer s (Q : state -> unit -> Prop) :
  (signer = p_owner (st_portal s) -> p_owner (st_portal s) <> ""%string -> Q s tt) -> wp (ensure_owner signer) s Q top2.
Proof.
  intros HQ. unfold ensure_owner. apply wp_bind, wp_gets. bd; [done|]. bd; [|done]. cbn [negb]. apply wp_ret. auto.
Qed.

Lemma admin_inv c o s s' : administrative o = true -> exec c o s = Ok s' tt -> admin_result c o s s'.
Proof.
  destruct o; try discriminate; intros _; cbn [exec]; inv_ok; cbn [admin_result].
  - destruct (Z.ltb_spec seconds 0); [done|]. apply wp_modify. split; [lia|done].
  - bd; [done|]. bd; [done|]. by apply wp_modify.
  - unfold set_paused. bd; [|done]. by apply wp_modify.
  - unfold set_yield_recipient. bd; [|done]. cbn [negb]. apply wp_bind.
    destruct (Z.eqb_spec provider IBC) as [->|H1].
    + apply wp_bind, wp_gets. bd; [|done]. apply wp_ret, wp_modify. repeat split; auto. done.
    + destruct (Z.eqb_spec provider HYPERLANE) as [->|H2].
      * destruct (c_hex c id) as [h|] eqn:Eh; [|done]. apply wp_bind, wp_gets. bd; [|done]. cbn [negb].
        unfold get_router. apply wp_bind, wp_bind, wp_gets.
        destruct (x_routers (st_world s) !! internal_id h) as [[|d [|]]|] eqn:Er; cbn [default from_option Datatypes.id]; try done.
        apply wp_ret, wp_ret, wp_modify. repeat split; auto; [done|]. intros _. exists h, d. auto.
      * apply wp_ret, wp_modify. repeat split; done.
  - unfold vaults_set_paused. bd; [|done]. cbn [negb].
    destruct ((0 <=? paused) && (paused <=? 3)) eqn:E; [|done]. apply andb_true_iff in E as [E1 E2]. cbn [negb].
    apply wp_modify. split; [done|]. split; [lia|done].
  - apply wp_bind, ensure_owner_spec. intros. by apply wp_modify.
  - apply wp_bind, ensure_owner_spec. intros ? ?.
    destruct (Z.eqb_spec chain 0); [done|]. destruct (Z.eqb_spec chain (c_chain c)); [done|].
    destruct (Z.eqb_spec (blen transceiver) 32); [|done]. cbn [negb]. bd; [done|].
    destruct (Z.eqb_spec (blen manager) 32); [|done]. cbn [negb]. bd; [done|].
    apply wp_modify. repeat (split; [done|]). done.
  - apply wp_bind, ensure_owner_spec. intros ? ?.
    destruct (Z.eqb_spec chain (c_chain c)); [done|].
    destruct (Z.eqb_spec (blen token) 32); [|done]. cbn [negb]. bd; [done|].
    apply wp_modify. repeat (split; [done|]). done.
  - apply wp_bind, ensure_owner_spec. intros ? ?. destruct (c_dec c newOwner) eqn:E; [|done]. bd; [done|].
    apply wp_modify. repeat (split; [done|]). done.
  - apply wp_top. intros s1 [] H1. eapply op_ibc_send_other_inv. exact H1.
  - by apply wp_modify.
  - apply wp_bind, wp_gets. destruct (x_tokens (st_world s) !! token) eqn:E; [done|]. by apply wp_modify.
  - by apply wp_modify.
Qed.

(** A payment with several outputs: the transfers one after the other, with
    corrections of the holders statistic in between. *)
Lemma lifted_lifted s f j k : lifted (lifted s f j) f k = lifted s f (j + k).
Proof. unfold lifted, set. cbn. f_equal. f_equal. apply addz_addz. Qed.
Lemma total_nonneg l : Forall (fun ta : addr * Z => 0 < ta.2) l -> 0 <= total_of l.
Proof. induction 1 as [|tb l Hb F IH]; [done|]. change (total_of (tb :: l)) with (tb.2 + total_of l). lia. Qed.
Lemma tally_none s : tallied s (holders s) = s.
Proof. by destruct s as [b [? ? ? [] ? ? ?] p v w]. Qed.
(** One output, seen from the state in which the remaining ones are not yet debited. *)
Lemma output_step s f t a r : ordinary f -> t <> ModuleA -> t <> YieldA -> 0 < a -> 0 <= r -> a + r <= bal s f -> exists n,
  send_result (lifted s f (- r)) f t a = lifted (send_result (tallied s n) f t a) f (- r) /\
  (n <> holders s -> a + r = bal s f /\ 0 < r) /\ cpre (LTally n) s.
Proof.
  intros [Hf1 Hf2] Ht1 Ht2 Ha Hr Hb. set (h := holders s).
  set (B := bk_bal (st_bank s)). assert (HB : mget B f = bal s f) by (by rewrite bal_mget).
  assert (Eq : forall n, send_holders f t (addz f (- a) (addz f (- r) B)) h = send_holders f t (addz f (- a) B) n ->
    send_result (lifted s f (- r)) f t a = lifted (send_result (tallied s n) f t a) f (- r)).
  { intros n E. unfold send_result, lifted, tallied. unfold set. cbn -[addz send_holders send_prin send_tp].
    fold h B. rewrite E. f_equal. f_equal. rewrite (addz_comm _ f f). by rewrite (addz_comm _ t f). }
  assert (U : forall B' n, send_holders f t B' n =
    let h1 := if mget B' f =? 0 then dec_sat n else n in if mget B' t =? 0 then wrap_u64 (h1 + 1) else h1).
  { intros. unfold send_holders. by rewrite !decide_False by done. }
  assert (M1 : mget (addz f (- a) (addz f (- r) B)) f = bal s f - a - r).
  { rewrite !mget_addz, !decide_True by done. lia. }
  assert (M2 : mget (addz f (- a) B) f = bal s f - a).
  { rewrite !mget_addz, !decide_True by done. lia. }
  assert (M3 : t <> f -> mget (addz f (- a) (addz f (- r) B)) t = mget (addz f (- a) B) t).
  { intros. rewrite !mget_addz, !decide_False by done. lia. }
  destruct (decide (bal s f - a - r = 0 /\ bal s f - a <> 0)) as [[E1 E2]|E].
  - exists (if decide (t = f) then wrap_u64 (dec_sat h + 1) else dec_sat h). split; [|split].
    + apply Eq. rewrite !U, M1, M2. rewrite (proj2 (Z.eqb_eq (bal s f - a - r) 0)) by lia.
      rewrite (proj2 (Z.eqb_neq (bal s f - a) 0)) by lia. cbn zeta. destruct (decide (t = f)) as [->|Hn].
      * rewrite M1, M2. rewrite (proj2 (Z.eqb_eq (bal s f - a - r) 0)) by lia.
        by rewrite (proj2 (Z.eqb_neq (bal s f - a) 0)) by lia.
      * by rewrite M3.
    + intros _. lia.
    + cbn [cpre]. fold h. intros Hh. unfold dec_sat. destruct (Z.ltb_spec 0 h).
      * left. destruct (decide (t = f)); [|lia]. replace (h - 1 + 1) with h by lia. unfold wrap_u64.
        pose proof (Z.mod_le h (2 ^ 64) ltac:(lia) ltac:(lia)). pose proof (Z.mod_pos_bound h (2 ^ 64) ltac:(lia)).
        split; [lia|]. intros. rewrite Z.mod_small by lia. lia.
      * assert (h = 0) as -> by lia. destruct (decide (t = f)); [|left; lia]. right. split; [done|]. split; [done|].
        exists f. split; [by split|lia].
  - exists h. split; [|split; [done|cbn [cpre]; fold h; lia]]. apply Eq. rewrite !U, M1, M2.
    assert (X : (bal s f - a - r =? 0) = (bal s f - a =? 0)).
    { destruct (Z.eqb_spec (bal s f - a - r) 0), (Z.eqb_spec (bal s f - a) 0); try done; exfalso; apply E; lia. }
    rewrite X. cbn zeta. destruct (decide (t = f)) as [->|Hn]; [by rewrite M1, M2, X|by rewrite M3].
Qed.
Lemma multi_trace f l s s' : ordinary f -> is_Some (bk_bal (st_bank s) !! f) -> Forall (fun ta : addr * Z => 0 < ta.2) l -> total_of l <= bal s f ->
  multi f l (lifted s f (- total_of l)) s' ->
  exists ls, ctrace ls s s' /\ Forall (fun x => (exists t a, (t, a) ∈ l /\ x = LSend f t a) \/ exists n, x = LTally n) ls.
Proof.
  intros Hf. revert s. induction l as [|[t a] l IH]; intros s Hd F Hb H.
  { inversion H; subst. exists []. split; [|constructor]. apply ct_nil.
    unfold lifted, same_core, current_index. cbn. rewrite addz_0 by done. by destruct (st_bank s). }
  inversion H as [|t' a' l' s0 s1 Ha Ht1 Ht2 Hm]; subst. clear H. apply Forall_cons in F as [_ F].
  pose proof (total_nonneg l F) as Hr. change (total_of ((t, a) :: l)) with (a + total_of l) in *.
  rewrite lifted_lifted in Hm. replace (- (a + total_of l) + a) with (- total_of l) in Hm by lia.
  destruct (output_step s f t a (total_of l) Hf Ht1 Ht2 Ha Hr Hb) as (n & E & _ & Hn).
  rewrite E in Hm.
  assert (Bt : bal (tallied s n) f = bal s f) by done.
  destruct (IH (send_result (tallied s n) f t a)) as (ls & T & G); auto.
  - cbn. unfold addz at 1. destruct (decide (f = t)) as [->|]; [rewrite lookup_insert; eauto|]. rewrite lookup_insert_ne by done.
    unfold addz. rewrite lookup_insert. eauto.
  - rewrite bal_send. unfold ind. rewrite Bt, decide_True by done. case_decide; lia.
  - exists (LTally n :: LSend f t a :: ls). split.
    + eapply ct_cons; [exact Hn|apply same_core_refl|]. eapply ct_cons; [|apply same_core_refl|exact T].
      cbn [cpre capply]. rewrite Bt. split; [lia|]. split; [done|by split].
    + constructor; [eauto|]. constructor; [left; exists t, a; split; [constructor|done]|].
      eapply Forall_impl; [exact G|]. intros x [(t' & a' & Hi & ->)|?]; [|auto]. left. exists t', a'. split; [by constructor|done].
Qed.

Theorem op_trace c o s s' : chain_ok c -> winv c s -> exec c o s = Ok s' tt ->
  exists ls, ctrace ls s s' /\ Forall (allowed c o) ls.
Proof.
  intros Hc [Hw Hpw] H.
  pose proof (wf_module _ _ Hw) as Hmod. assert (Hmod0 : 0 <= bal s ModuleA) by lia.
  pose proof (wf_coll _ _ Hw) as Hg. pose proof (ok_blocked c Hc) as Hbl. pose proof (ok_codec c Hc) as Hcod.
  assert (Hone : forall l s'', cpre l s -> same_core (capply l s) s'' -> allowed c o l -> exists ls, ctrace ls s s'' /\ Forall (allowed c o) ls).
  { intros l s'' Hp Hs Ha. exists [l]. split; [|by apply Forall_singleton]. eapply ctrace_core_r; [by apply ctrace_one|done]. }
  assert (Hnone : same_core s s' -> exists ls, ctrace ls s s' /\ Forall (allowed c o) ls).
  { intros. exists []. split; [by apply ct_nil|constructor]. }
  destruct (administrative o) eqn:Ead.
  { apply Hnone. pose proof (admin_inv _ _ _ _ Ead H) as Hr. clear - Hr.
    destruct o; cbn in Hr; try done; destruct_and?; subst; repeat split. }
  destruct o; try discriminate Ead; clear Ead; cbn [exec] in H.
  - (* claim *)
    apply signed_ok in H as [H Hs]. apply claim_yield_inv in H as (a & y & Hd & _ & _ & Hy & Hb & ->).
    destruct Hs as [[b Hs]|Hs]; [|congruence]. assert (a = AUser b) as -> by congruence.
    destruct (pay_trace s (AUser b) y) as (ls & T & F); auto. exists ls. split; [done|].
    eapply Forall_impl; [exact F|]. intros ? ->. cbn. eauto.
  - (* lock *)
    apply signed_ok in H as [H Hs]. destruct Hs as [[b Hs]|Hs].
    2:{ exfalso. revert H. unfold lock, gets, bind, fail. cbn. rewrite Hs. repeat case_match; discriminate. }
    destruct (lock_inv _ _ _ _ _ _ (AUser b) Hc Hs ltac:(done) ltac:(done) H) as (amt & Hamte & _ & _ & _ & Hamt & _ & _ & ->).
    pose proof (ok_min_lock c Hc). destruct (position_account_not signer vault (x_now (st_world s))) as (? & ? & _).
    eapply (Hone (LSend (AUser b) _ amt)); [|apply lock_core|cbn; eauto 10].
    cbn. split; [lia|]. split; [done|by split].
  - (* unlock *)
    apply signed_ok in H as [H Hs]. destruct Hs as [[b Hs]|Hs].
    2:{ exfalso. revert H. unfold unlock, unlock_internal, gets, bind, fail. cbn. rewrite Hs. repeat case_match; discriminate. }
    destruct (unlock_inv _ _ _ _ _ _ (AUser b) Hs ltac:(done) ltac:(done) (pos_wf_positive s _ _ Hpw) H) as (amt & d & s1 & _ & _ & _ & _ & Hv & Hamt & _ & Hu & ->).
    assert (Hamt0 : 0 <= amt) by lia.
    destruct (unls_trace _ _ _ _ _ _ _ _ _ (user_ordinary b) (pos_wf_positive s _ _ Hpw) Hamt0 Hu) as (ls & T & F).
    exists ls. split; [eapply ctrace_core_r; [exact T|repeat split]|].
    eapply Forall_impl; [exact F|]. intros l [[Hne [z ->]]|[-> (t & z & Hl)]]; cbn; exists b; split; auto.
    + left. destruct Hv; [|done]. eauto.
    + right. eauto.
  - (* deliver *)
    apply deliver_inv in H as (v & pl & _ & Hh); auto.
    destruct (handled_trace c x vaa pl _ _ Hh Hg) as (ls & T & F). exists ls. split; [|done].
    eapply ctrace_core; [|exact T]. repeat split.
  - (* transfer *)
    apply signed_ok in H as [H Hs]. destruct Hs as [[b Hs]|Hs].
    2:{ exfalso. revert H. unfold transfer, lift, gets, bind, fail, get_index, panic. cbn. rewrite Hs. repeat case_match; discriminate. }
    destruct (transfer_inv _ _ _ _ _ _ _ _ _ (AUser b) Hmod0 Hs ltac:(done) H) as (amt & pr & sender & id & Hamte & Hamt & _ & _ & _ & _ & _ & _ & _ & Hle & ->).
    destruct (Z.ltb_spec 0 amt).
    + apply (Hone (LBurn (AUser b) amt)); [|unfold capply|cbn; eauto 10].
      * cbn. split; [lia|done].
      * eapply same_core_trans; [apply (core_apply (LBurn (AUser b) amt) s (bump_nonce s)); repeat split|repeat split].
    + assert (amt = 0) as -> by lia. apply Hnone. repeat split.
  - (* send *)
    apply op_send_inv in H as (He & Hamt & ? & ? & ->); auto.
    apply (Hone (LSend from to amount)); [|done|by split]. cbn. split; [lia|].
    split; [by apply external_ordinary|by split].
  - (* several outputs *)
    apply op_multi_inv in H as (He & _ & Hpos & Hamt & Hm); auto.
    apply multi_trace in Hm as (ls & T & F); [|by apply external_ordinary| |done|lia].
    + exists ls. split; [done|]. eapply Forall_impl; [exact F|]. intros l Hl. by split.
    + unfold bal in Hamt. destruct (bk_bal (st_bank s) !! from) eqn:E; [eauto|]. cbn in Hamt. lia.
  - apply op_ibc_send_inv in H as (He & Hamt & _ & ->).
    apply (Hone (LSend from (AEscrow transfer_port chan) amount)); [|repeat split|by split]. cbn.
    split; [lia|]. split; [by apply external_ordinary|done].
  - apply op_ibc_recv_inv in H as (a & Hd & _ & [[-> ->]|(Hamt & ? & ? & ->)]); auto.
    apply (Hone (LSend (AEscrow transfer_port chan) a amount)); [|done|cbn; eauto]. cbn.
    split; [lia|]. split; [done|by split].
  - destruct (op_ibc_ack_inv _ _ _ _ _ Hcod (wf_packets _ _ Hw) H) as (p & _ & [[-> ->]|[-> Hf]]); [apply Hnone; repeat split|].
    apply failed_trace in Hf as (ls & T & F). exists ls. split; [eapply ctrace_core; [|exact T]; repeat split|].
    eapply Forall_impl; [exact F|]. intros ? (a & z & ->). cbn. eauto.
  - destruct (op_ibc_timeout_inv _ _ _ _ Hcod (wf_packets _ _ Hw) H) as (p & _ & Hf).
    apply failed_trace in Hf as (ls & T & F). exists ls. split; [eapply ctrace_core; [|exact T]; repeat split|].
    eapply Forall_impl; [exact F|]. intros ? (a & z & ->). cbn. eauto.
  - apply (op_warp_send_inv c) in H as (col & _ & He & Hamt & _ & ->).
    apply (Hone (LSend from WarpA amount)); [|repeat split|by split]. cbn.
    split; [lia|]. split; [by apply external_ordinary|done].
  - apply op_warp_recv_inv in H as (col & _ & Hamt & _ & ? & ? & ->); auto.
    apply (Hone (LSend WarpA to amount)); [|repeat split|done]. cbn.
    split; [lia|]. split; [done|by split].
Qed.
