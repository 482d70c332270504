(** Balances, supply, index and principal along histories. *)
From Verif Require Export InvP.

(** * Supply and balances *)
Definition solid (s : state) : Prop := msum (bk_bal (st_bank s)) = supply s /\ forall a, 0 <= bal s a.

Lemma solid_core s s' : same_core s s' -> solid s -> solid s'.
Proof.
  intros Hs [H1 H2]. split.
  - destruct Hs as [Hb _]. unfold supply in *. by rewrite Hb.
  - intros a. by rewrite (core_bal _ _ a Hs).
Qed.
Lemma bal_label_lower l s a : cpre l s -> (forall b, 0 <= bal s b) -> 0 <= bal (capply l s) a.
Proof.
  intros H Hn. pose proof (Hn a) as Ha. destruct l; cbn [cpre capply] in *.
  - rewrite bal_send. unfold ind. repeat case_decide; subst; lia.
  - rewrite bal_send. unfold ind. repeat case_decide; subst; lia.
  - change (bal (shiftp ?a ?b) ?x) with (bal a x). rewrite bal_send. unfold ind. repeat case_decide; subst; lia.
  - rewrite !bal_send. unfold ind. repeat case_decide; subst; try lia; discriminate.
  - rewrite bal_accrued by lia. unfold ind. case_decide; lia.
  - rewrite bal_issued by (try lia; naive_solver). unfold ind. case_decide; lia.
  - rewrite bal_burned by (try lia; unfold ordinary in *; naive_solver). unfold ind. case_decide; subst; lia.
  - exact Ha.
Qed.
Lemma solid_label l s : cpre l s -> solid s -> solid (capply l s).
Proof.
  intros H [H1 H2]. split; [|intros a; by apply bal_label_lower].
  destruct l; cbn [cpre capply] in *.
  - by rewrite sum_send, supply_send.
  - by rewrite sum_send, supply_send.
  - change (st_bank (shiftp ?a ?b)) with (st_bank a). change (supply (shiftp ?a ?b)) with (supply a).
    by rewrite sum_send, supply_send.
  - by rewrite !sum_send, !supply_send.
  - rewrite bsum_accrued, supply_accrued by lia. lia.
  - rewrite bsum_issued, supply_issued by lia. lia.
  - rewrite bsum_burned, supply_burned by lia. lia.
  - exact H1.
Qed.
Lemma solid_trace ls s s' : ctrace ls s s' -> solid s -> solid s'.
Proof. apply (ctrace_ind_core solid); [exact solid_core|]. intros l s0. apply solid_label. Qed.
Lemma solid_step c o s s' : chain_ok c -> winv c s -> exec c o s = Ok s' tt -> solid s -> solid s'.
Proof. intros Hc Hw H. destruct (op_trace c o s s' Hc Hw H) as (ls & T & _). by eapply solid_trace. Qed.
Lemma solid_fresh c s : fresh c s -> solid s.
Proof.
  intros []. split.
  - unfold supply. rewrite fresh_bank. apply msum_empty.
  - intros a. unfold bal. rewrite fresh_bank. cbn. by rewrite lookup_empty.
Qed.
Lemma solid_reachable c s : chain_ok c -> reachable c s -> solid s.
Proof.
  intros Hc Hr. apply (reachable_inv solid c s Hc Hr).
  - intros. by eapply solid_fresh.
  - intros s1 s2 o Hw Hs H. by eapply solid_step.
Qed.

(** * Supply changes *)
Lemma supply_label l s : cpre l s ->
  supply (capply l s) = supply s + match l with LAccrue _ n _ => n | LIssue _ z => z | LBurn _ z => - z | _ => 0 end.
Proof.
  intros H. destruct l; cbn [cpre capply] in *; rewrite ?supply_send; try lia.
  - change (supply (shiftp ?a ?b)) with (supply a). rewrite supply_send. lia.
  - rewrite supply_accrued by lia. lia.
  - rewrite supply_issued by lia. lia.
  - rewrite supply_burned by lia. lia.
  - change (supply (tallied s n)) with (supply s). lia.
Qed.
Lemma supply_trace_same (A : label -> Prop) ls s s' : ctrace ls s s' -> Forall A ls ->
  (forall l, A l -> match l with LAccrue _ _ _ | LIssue _ _ | LBurn _ _ => False | _ => True end) ->
  supply s' = supply s.
Proof.
  intros T F HA. apply (ctrace_rel (fun s s' => supply s' = supply s) A) with (ls := ls); auto.
  - intros s1 s2 Hs. by apply core_supply.
  - intros s1 s2 s3. congruence.
  - intros l s1 Hl Hp. rewrite supply_label by done. specialize (HA l Hl). destruct l; try done; lia.
Qed.
Lemma supply_trace_up (A : label -> Prop) ls s s' : ctrace ls s s' -> Forall A ls ->
  (forall l, A l -> match l with LBurn _ _ => False | _ => True end) -> supply s <= supply s'.
Proof.
  intros T F HA. apply (ctrace_rel (fun s s' => supply s <= supply s') A) with (ls := ls); auto.
  - intros s1 s2 Hs. rewrite (core_supply _ _ Hs). lia.
  - intros s1 s2 s3. lia.
  - intros l s1 Hl Hp. rewrite supply_label by done. specialize (HA l Hl). destruct l; cbn in Hp; try done; lia.
Qed.
Definition money_op (o : op) : bool := match o with OpDeliver _ _ | OpTransfer _ _ _ _ _ _ => true | _ => false end.
Lemma supply_op_same c o s s' : chain_ok c -> winv c s -> exec c o s = Ok s' tt -> money_op o = false ->
  supply s' = supply s.
Proof.
  intros Hc Hw H Ho. destruct (op_trace c o s s' Hc Hw H) as (ls & T & F).
  apply (supply_trace_same _ _ _ _ T F). intros l Hl.
  destruct o; try discriminate; cbn in Hl; try done; naive_solver.
Qed.
Lemma supply_deliver_up c x bz s s' : chain_ok c -> winv c s -> exec c (OpDeliver x bz) s = Ok s' tt ->
  supply s <= supply s'.
Proof.
  intros Hc Hw H. destruct (op_trace c _ s s' Hc Hw H) as (ls & T & F).
  apply (supply_trace_up _ _ _ _ T F). intros l Hl. by destruct l.
Qed.
Lemma supply_transfer c ps signer chain tok rc amount s s' : winv c s ->
  exec c (OpTransfer ps signer chain tok rc amount) s = Ok s' tt ->
  exists x, amount = Some x /\ supply s' = supply s - x.
Proof.
  intros [Hw _] H. destruct (transfer_inv' _ _ _ _ _ _ _ _ _ (wf_module _ _ Hw) H)
    as (b & amt & pr & sender & id & _ & -> & Hamt & _ & _ & _ & _ & _ & _ & _ & _ & ->).
  exists amt. split; [done|].
  change (supply (post ?s ?m)) with (supply s). rewrite supply_burned by lia. done.
Qed.

(** * The yield account *)
Lemma yield_label l s : cpre l s ->
  match l with LAccrue _ _ _ | LIssue _ _ => False | _ => True end -> bal (capply l s) YieldA <= bal s YieldA.
Proof.
  intros H Hl. destruct l; cbn [cpre capply] in *; try done; unfold ordinary in *.
  - rewrite bal_send. unfold ind. rewrite !decide_False by naive_solver. lia.
  - rewrite bal_send. unfold ind. rewrite decide_True by done. rewrite decide_False by naive_solver. lia.
  - change (bal (shiftp ?a ?b) ?x) with (bal a x). rewrite bal_send. unfold ind.
    rewrite decide_True by done. rewrite decide_False by done. lia.
  - rewrite !bal_send. unfold ind. rewrite decide_True by done. rewrite !decide_False by naive_solver. lia.
  - rewrite bal_burned by (try lia; naive_solver). unfold ind. rewrite decide_False by naive_solver. lia.
Qed.
Lemma yield_op c o s s' : chain_ok c -> winv c s -> exec c o s = Ok s' tt ->
  match o with OpDeliver _ _ => False | _ => True end -> bal s' YieldA <= bal s YieldA.
Proof.
  intros Hc Hw H Ho. destruct (op_trace c o s s' Hc Hw H) as (ls & T & F).
  apply (ctrace_rel (fun s s' => bal s' YieldA <= bal s YieldA) (allowed c o)) with (ls := ls); auto.
  - intros s1 s2 Hs. rewrite (core_bal _ _ _ Hs). lia.
  - intros s1 s2 s3. lia.
  - intros l s1 Hl Hp. apply yield_label; auto.
    destruct o; try done; cbn in Hl; try done; naive_solver.
Qed.

(** No transfer into the yield account except from the module. *)
Lemma send_to_yield f amt s s' u : amt <> 0 -> f <> ModuleA -> f <> YieldA ->
  send_coins f YieldA amt s = Ok s' u -> False.
Proof.
  intros Ha Hm Hy H. destruct (wp_ok _ _ _ _ _ _ (send_coins_cases f YieldA amt s Ha) H) as (_ & [?|[?|?]] & _); done.
Qed.

(** * Principal books *)
Definition gap (s : state) : Z := total_principal s - msum (d_principal (st_dollar s)).
Lemma gap_core s s' : same_core s s' -> gap s' = gap s.
Proof. intros Hs. unfold gap. rewrite (core_tp _ _ Hs). by destruct Hs as (_ & _ & -> & _). Qed.
Lemma gap_send s f t amt : ordinary f -> ordinary t -> gap (send_result s f t amt) = gap s.
Proof. intros [] []. unfold gap. by rewrite tp_send, psum_send. Qed.
Lemma gap_from_yield s a y : gap (send_result s YieldA a y) = gap s.
Proof. unfold gap. by rewrite send_from_yield. Qed.
Lemma gap_shift s yp : gap (shiftp s yp) = gap s.
Proof.
  unfold gap. change (total_principal (shiftp s yp)) with (total_principal s).
  change (d_principal (st_dollar (shiftp s yp))) with (addz FlexibleA yp (addz StakedA (- yp) (d_principal (st_dollar s)))).
  rewrite !msum_addz. lia.
Qed.
Lemma gap_accrued s i n d : gap (accrued s i n d) = gap s.
Proof. destruct (frame_accrued s i n d) as (_ & H1 & H2 & _). unfold gap. by rewrite H1, H2. Qed.
Lemma gap_burned s from amt : ordinary from -> gap (burned s from amt) = gap s.
Proof.
  intros [H1 H2]. unfold burned. destruct (0 <? amt); [|done].
  unfold gap, burn_result, send_result, total_principal, send_tp, send_prin. cbn -[addz msum up down].
  repeat (case_decide; try done). rewrite msum_addz. unfold total_principal. lia.
Qed.
Lemma gap_issued s to amt : to <> ModuleA -> 0 <= amt -> 0 < current_index s ->
  gap s <= gap (issued s to amt) <= gap s + 1.
Proof.
  intros H1 H2 Hi. unfold issued. destruct (Z.ltb_spec 0 amt); [|lia].
  unfold gap, send_result, total_principal, send_tp, send_prin. cbn -[addz msum up down].
  rewrite !(decide_False (P := ModuleA = YieldA)) by done.
  destruct (decide (to = YieldA)) as [->|Hne]; [unfold total_principal; cbn; lia|].
  repeat (case_decide; try done).
  rewrite msum_addz. pose proof (down_le_up amt (current_index s) ltac:(lia) Hi).
  change (current_index (mint_result s amt)) with (current_index s). unfold total_principal. cbn. lia.
Qed.
Lemma gap_pay s a y : gap (pay s a y) = gap s.
Proof. unfold pay. destruct (0 <? y); [apply gap_from_yield|done]. Qed.
Lemma gap_label l s : cpre l s -> match l with LIssue _ _ => False | _ => True end -> gap (capply l s) = gap s.
Proof.
  intros H Hl. destruct l; cbn [cpre capply] in *; try contradiction.
  - apply gap_send; tauto.
  - apply gap_from_yield.
  - by rewrite gap_shift, gap_from_yield.
  - rewrite gap_send; [apply gap_from_yield|done|tauto].
  - apply gap_accrued.
  - apply gap_burned; tauto.
  - done.
Qed.
Lemma upd_gap c i s s' : upd c i s s' -> good_collector s -> gap s' = gap s.
Proof.
  intros [a y ? ? ?|fy s1 ? ? ? -> ?|fy s1 sy yp ? ? ? -> ? ? ?|y ? ? ?|a amt Ha ?|s'' Hb] Hg.
  - apply gap_from_yield.
  - change (gap (record_reward ?s ?i ?f)) with (gap s). apply gap_pay.
  - change (gap (record_reward ?s ?i ?f)) with (gap s). by rewrite gap_shift, gap_from_yield, gap_pay.
  - rewrite gap_send; [apply gap_from_yield|done|exact Hg].
  - apply gap_send; destruct Ha as [->|[? ->]]; done.
  - destruct Hb as (E & R & F & T & D & -> & HF). done.
Qed.
Lemma upds_gap c i s s' : upds c i s s' -> good_collector s -> gap s' = gap s.
Proof.
  induction 1 as [|s s1 s2 H1 _ IH]; intros Hg; [done|].
  rewrite IH; [by eapply upd_gap|]. destruct (upd_frame _ _ _ _ H1 Hg) as (_ & _ & _ & (Hc & _) & _).
  unfold good_collector. by rewrite Hc.
Qed.

(** * What a delivery does to supply, statistics and index *)
Lemma accepted_carried c s bz v pl : accepted c s bz v pl -> carried c bz = Some pl.
Proof.
  intros [_ Hv _ (pr & t & m & _ & _ & Ht & _ & _ & Hm & ->)]. unfold carried. by rewrite Hv, Ht, Hm.
Qed.

Record effect (s s' : state) (n d z : Z) : Prop := {
  ef_n : 0 <= n;
  ef_z : 0 <= z;
  ef_supply : supply s' = supply s + n + z;
  ef_yield : ds_yield (d_stats (st_dollar s')) = ds_yield (d_stats (st_dollar s)) + d;
  ef_d : d = n \/ d = 0 /\ int_fits (ds_yield (d_stats (st_dollar s)) + n) = false;
  ef_index : current_index s <= current_index s';
  ef_n0 : current_index s' = current_index s -> n = 0
}.
Lemma applied_effect c i s s' : index_applied c i s s' -> good_collector s ->
  exists n, effect s s' n n 0 /\ n = present (total_principal s) i - supply s /\ current_index s' = i /\ current_index s < i /\
    gap s' = gap s /\ total_principal s' = total_principal s.
Proof.
  intros (Hi & n & Hn & H0 & Hu) Hg. exists n.
  pose proof (accrued_good s i n n Hg) as Hg'.
  destruct (upd_frame' _ _ _ _ Hu Hg') as (_ & Hi' & Hs' & _ & _ & _ & _ & Hy' & Htp & _).
  destruct (frame_accrued s i n n) as (Hai & _ & Hat & _ & Hay & _).
  split; [|split; [done|split; [congruence|split; [done|split; [|congruence]]]]].
  - pose proof (supply_accrued s i n n H0). constructor; auto; try lia; congruence.
  - rewrite (upds_gap _ _ _ _ Hu Hg'). apply gap_accrued.
Qed.
Lemma tried_effect c i s s' : index_tried c i s s' -> good_collector s ->
  exists n d, effect s s' n d 0 /\ current_index s' = Z.max i (current_index s) /\
    (current_index s < i -> n = present (total_principal s) i - supply s) /\
    gap s' = gap s /\ total_principal s' = total_principal s.
Proof.
  intros [[Hi ->]|(Hi & n & d & Hn & H0 & Hd & Hu)] Hg.
  - exists 0, 0. split; [constructor; auto; lia|]. split; [lia|]. split; [lia|done].
  - exists n, d. pose proof (accrued_good s i n d Hg) as Hg'.
    destruct (upd_frame' _ _ _ _ Hu Hg') as (_ & Hi' & Hs' & _ & _ & _ & _ & Hy' & Htp & _).
    destruct (frame_accrued s i n d) as (Hai & _ & Hat & _ & Hay & _).
    split; [|split; [lia|split; [done|split; [|congruence]]]].
    + pose proof (supply_accrued s i n d H0). constructor; auto; try lia; try congruence.
      destruct Hd as [Hd|(Hd & _ & Ho & _)]; [by left|]. right. done.
    + rewrite (upds_gap _ _ _ _ Hu Hg'). apply gap_accrued.
Qed.
Lemma deliver_effect c x bz s s' : chain_ok c -> wfs c s -> exec c (OpDeliver x bz) s = Ok s' tt ->
  exists n d, effect s s' n d (match carried_token c bz with Some t => tk_amount t | None => 0 end) /\
    gap s <= gap s' <= gap s + (match carried_token c bz with Some t => 1 | None => 0 end) /\
    match carried_token c bz, carried_index c bz with
    | Some t, _ => current_index s' = Z.max (tk_index t) (current_index s) /\
        (current_index s < tk_index t -> n = present (total_principal s) (tk_index t) - supply s)
    | None, Some i => current_index s' = i /\ current_index s < i /\ d = n /\ n = present (total_principal s) i - supply s
    | None, None => n = 0 /\ current_index s' = current_index s
    end.
Proof.
  intros Hc Hw H. destruct (deliver_inv' _ _ _ _ _ Hc Hw H) as (v & pl & Ha & Hh).
  pose proof (wf_coll c s Hw) as Hg0. pose proof (wf_index c s Hw) as Hidx.
  apply accepted_carried in Ha. unfold carried_token, carried_index. rewrite Ha.
  destruct Hh as [Hty|i s1 Hty Hd Hap|t s1 Hty Hd _ _ Htr H0 _ Hnm]; rewrite Hty; cbv iota.
  - exists 0, 0. split; [constructor; change (supply (consume ?s ?x)) with (supply s); change (st_dollar (consume ?s ?x)) with (st_dollar s); change (current_index (consume ?s ?x)) with (current_index s); auto; lia|].
    change (gap (consume s (va_digest v))) with (gap s). split; [lia|]. split; [done|done].
  - rewrite Hd. apply applied_effect in Hap as (n & He & Hn & Hi & Hlt & Hgap & _); [|exact Hg0].
    exists n, n. split.
    + destruct He. constructor; auto.
    + split; [|auto]. change (gap (consume s (va_digest v))) with (gap s) in Hgap. lia.
  - rewrite Hd. apply tried_effect in Htr as (n & d & He & Hi & Hn & Hgap & _); [|exact Hg0].
    exists n, d. destruct He as [E1 E2 E3 E4 E5 E6 E7]. destruct (frame_issued s1 (c_acct c (sl_bytes (tk_recipient t))) (tk_amount t)) as (Fi & Fy & _).
    change (current_index (consume s (va_digest v))) with (current_index s) in *.
    change (supply (consume s (va_digest v))) with (supply s) in *.
    change (gap (consume s (va_digest v))) with (gap s) in *.
    split.
    + constructor; auto.
      * rewrite supply_issued by done. lia.
      * rewrite Fy. exact E4.
      * rewrite Fi. done.
      * rewrite Fi. done.
    + split.
      * pose proof (gap_issued s1 (c_acct c (sl_bytes (tk_recipient t))) (tk_amount t) Hnm H0 ltac:(lia)). lia.
      * rewrite Fi. split; [done|exact Hn].
Qed.

(** Messages other than deliveries. *)
Lemma gap_op c o s s' : chain_ok c -> winv c s -> exec c o s = Ok s' tt ->
  match o with OpDeliver _ _ => False | _ => True end -> gap s' = gap s.
Proof.
  intros Hc Hw H Ho. destruct (op_trace c o s s' Hc Hw H) as (ls & T & F).
  apply (ctrace_rel (fun s s' => gap s' = gap s) (allowed c o)) with (ls := ls); auto.
  - intros s1 s2 Hs. by apply gap_core.
  - intros s1 s2 s3. congruence.
  - intros l s1 Hl Hp. apply gap_label; auto.
    destruct o; try done; cbn in Hl; try done; naive_solver.
Qed.
Lemma yield_stat_op c o s s' : chain_ok c -> winv c s -> exec c o s = Ok s' tt ->
  match o with OpDeliver _ _ => False | _ => True end ->
  ds_yield (d_stats (st_dollar s')) = ds_yield (d_stats (st_dollar s)) /\ current_index s' = current_index s.
Proof.
  intros Hc Hw H Ho. destruct (op_trace c o s s' Hc Hw H) as (ls & T & F).
  apply (ctrace_rel (fun s s' => ds_yield (d_stats (st_dollar s')) = ds_yield (d_stats (st_dollar s)) /\
    current_index s' = current_index s) (allowed c o)) with (ls := ls); auto.
  - intros s1 s2 (_ & Hi & _ & Hs). by rewrite Hs, Hi.
  - intros s1 s2 s3 [] []. split; congruence.
  - intros l s1 Hl Hp.
    assert (match l with LAccrue _ _ _ | LIssue _ _ => False | _ => True end) as Hl2.
    { destruct o; try done; cbn in Hl; try done; naive_solver. }
    destruct l; try done. cbn [capply].
    destruct (frame_burned s1 from amt) as (H1 & H2 & _). auto.
Qed.

Lemma count_rel (f : state -> op -> Z) c (P : Z -> state -> Prop) : chain_ok c ->
  (forall s s' o k, winv c s -> P k s -> exec c o s = Ok s' tt -> P (k + f s o) s') ->
  forall l s k, winv c s -> P k s -> P (k + count_ops f c s l) (run c s l).
Proof.
  intros Hc Hs. induction l as [|o l IH]; intros s k Hw Hk; cbn [count_ops run fold_left].
  - by rewrite Z.add_0_r.
  - change (fold_left (step c) l (step c s o)) with (run c (step c s o) l).
    rewrite Z.add_assoc. unfold succeeds, step. destruct (exec c o s) as [s' []| |] eqn:E.
    + apply IH; [by eapply winv_step|eauto].
    + rewrite Z.add_0_r. by apply IH.
    + rewrite Z.add_0_r. by apply IH.
Qed.
Lemma fresh_gap c s : fresh c s -> gap s = 0.
Proof. intros []. unfold gap, total_principal. rewrite fresh_stats, fresh_principal. reflexivity. Qed.

Theorem books_balanced c s0 ops : chain_ok c -> fresh c s0 ->
  0 <= gap (run c s0 ops) <= count_ops (issuance c) c s0 ops.
Proof.
  intros Hc Hf. apply (count_rel (issuance c) c (fun k s => 0 <= gap s <= k)) with (k := 0); auto.
  - intros s s' o k Hw Hk H. destruct o; try (rewrite (gap_op c _ s s' Hc Hw H I); cbn; lia).
    destruct (deliver_effect _ _ _ _ _ Hc (wi_wfs _ _ Hw) H) as (n & d & _ & Hg & _).
    cbn. destruct (carried_token c vaa); lia.
  - by apply winv_fresh.
  - rewrite (fresh_gap c s0 Hf). lia.
Qed.
