(** Index updates that succeed. *)
From Verif Require Import PortalP.
From Verif Require Export GenesisP.

(** * Running *)
Lemma runs_spec {A} (m : M A) s (Q Q' : state -> A -> Prop) E : runs m s Q' -> wp m s Q E -> runs m s Q.
Proof. unfold runs, wp. by destruct (m s). Qed.
Lemma runs_np {A} (m : M A) s Q : runs m s Q -> m s <> Panic.
Proof. unfold runs. by destruct (m s). Qed.
Lemma np_wp {A} (m : M A) s (Q : state -> A -> Prop) : m s <> Panic -> wp m s Q (fun _ _ => False) -> runs m s Q.
Proof. unfold runs, wp. by destruct (m s). Qed.
Lemma whenb_run b m s (Q : state -> unit -> Prop) : (b = true -> runs m s Q) -> (b = false -> Q s tt) -> runs (whenb b m) s Q.
Proof. destruct b; cbn; auto. Qed.

(** * Bounds *)
Record calm (T : Z) (s : state) : Prop := {
  cm_bal : forall a, 0 <= bal s a;
  cm_sum : msum (bk_bal (st_bank s)) = T;
  cm_small : T < 2 ^ 180;
  cm_prin : forall a, Z.abs (prin s a) < 2 ^ 190;
  cm_idx : 0 < current_index s < 2 ^ 63
}.
Lemma calm_le T s a : calm T s -> bal s a <= T.
Proof. intros H. rewrite <- (cm_sum _ _ H), bal_mget. apply msum_get_le. intros j. rewrite <- bal_mget. apply H. Qed.
Lemma calm_up T s x : calm T s -> 0 <= x <= T -> 0 <= up x (current_index s) < 2 ^ 230.
Proof.
  intros H Hx. pose proof (cm_idx _ _ H). pose proof (cm_small _ _ H). pose proof (up_nonneg x (current_index s)).
  pose proof (up_bounds x (current_index s)). split; [lia|].
  assert (up x (current_index s) <= x * e12 + current_index s) by (set (u := up _ _) in *; clearbody u; nia).
  unfold e12 in *. lia.
Qed.
Lemma calm_mul T s a : calm T s -> int_fits (prin s a * current_index s) = true.
Proof.
  intros H. pose proof (cm_idx _ _ H). pose proof (cm_prin _ _ H a). unfold int_fits. apply Z.ltb_lt. rewrite Z.abs_mul.
  rewrite (Z.abs_eq (current_index s)) by lia.
  apply Z.le_lt_trans with (2 ^ 190 * 2 ^ 63); [|done]. apply Z.mul_le_mono_nonneg; lia.
Qed.

(** * Claims *)
Lemma yield_run T a s (Q : state -> Z -> Prop) : calm T s -> Q s (yield_of s a) -> runs (get_yield_of a) s Q.
Proof.
  intros H HQ. eapply (runs_spec _ _ _ (fun _ _ => True)); [|by apply (get_yield_of_spec a s Q (fun _ _ => True))].
  eapply runs_of_ok; [apply get_yield_of_run; [apply H|by eapply calm_mul]|done].
Qed.
Lemma send_yield_run T a y s (Q : state -> unit -> Prop) : calm T s -> 0 <= y <= bal s YieldA -> Q (pay s a y) tt -> runs (send_coins YieldA a y) s Q.
Proof.
  intros H Hy HQ. eapply (runs_spec _ _ _ (fun _ _ => True)); [|apply (send_yield_spec a y s Q (fun _ _ => True)); [lia|done|done]].
  unfold send_coins. destruct (Z.eqb_spec y 0); [done|]. apply runs_bind. unfold sub_coins. apply runs_bind, runs_gets.
  rewrite (proj2 (Z.ltb_ge _ _)) by lia. apply runs_modify. apply runs_bind. unfold send_restriction.
  rewrite (proj2 (Z.eqb_neq y 0)) by done. rewrite bool_decide_true by done. apply runs_ret. apply runs_bind.
  unfold add_coins. apply runs_bind, runs_gets, runs_bind. eapply runs_lift; [apply int_chk_run|by apply runs_modify, runs_modify].
  pose proof (calm_le _ _ a H). pose proof (calm_le _ _ YieldA H). pose proof (cm_bal _ _ H a). pose proof (cm_bal _ _ H YieldA). pose proof (cm_small _ _ H).
  unfold bal at 1. cbn. destruct (decide (a = YieldA)) as [->|Hn].
  - rewrite lookup_insert. cbn. unfold int_range. lia.
  - rewrite lookup_insert_ne by done. fold (bal s a). unfold int_range. lia.
Qed.
Lemma claim_module_run T c a s (Q : state -> Z -> Prop) : calm T s -> c_blocked c a = false -> yield_of s a <= bal s YieldA ->
  Q (pay s a (yield_of s a)) (yield_of s a) -> runs (claim_module_yield c a) s Q.
Proof.
  intros H Hb Hy HQ. pose proof (yield_of_nonneg s a). eapply (runs_spec _ _ _ (fun _ _ => True)); [|apply (claim_module_spec c a s Q (fun _ _ => True)); done].
  unfold claim_module_yield. apply runs_bind. eapply yield_run; [done|]. apply runs_bind. apply whenb_run; [|done].
  intros _. apply runs_bind. unfold new_coins. rewrite (proj2 (Z.ltb_ge _ _)) by lia. apply runs_ret.
  unfold send_to_account. rewrite Hb. eapply send_yield_run; [done|lia|done].
Qed.
Lemma calm_pay T s a y : calm T s -> 0 <= y <= bal s YieldA -> calm T (pay s a y).
Proof.
  intros H Hy. unfold pay. destruct (Z.ltb_spec 0 y); [|done]. rewrite send_from_yield. split; cbn; try apply H.
  - intros b. rewrite bal_mget. cbn. rewrite !mget_addz. rewrite <- !bal_mget. pose proof (cm_bal _ _ H b).
    pose proof (cm_bal _ _ H YieldA). repeat case_decide; subst; lia.
  - rewrite !msum_addz. rewrite (cm_sum _ _ H). lia.
Qed.
Lemma self_run T a x s : calm T s -> ordinary a -> 0 < x <= bal s a -> send_coins a a x s = Ok (send_result s a a x) tt.
Proof.
  intros H Ha Hx. pose proof (calm_le _ _ a H). pose proof (calm_up T s x H ltac:(lia)). pose proof (cm_prin _ _ H a).
  pose proof (cm_small _ _ H). pose proof (cm_idx _ _ H). apply send_run; auto; [lia|]. unfold int_range. constructor; unfold int_range, e12; try lia.
Qed.
Lemma calm_self T a x s : calm T s -> ordinary a -> 0 < x <= bal s a -> calm T (send_result s a a x).
Proof.
  intros H [H1 H2] Hx. split; try apply H.
  - intros b. rewrite bal_send. pose proof (cm_bal _ _ H b). lia.
  - rewrite sum_send. apply H.
  - intros b. rewrite prin_send by done. pose proof (cm_prin _ _ H b). lia.
Qed.

(** * The external claims *)
Lemma bind_np {A B} (m : M A) (f : A -> M B) s : m s <> Panic -> (forall s' a, m s = Ok s' a -> f a s' <> Panic) -> bind m f s <> Panic.
Proof. unfold bind. destruct (m s) eqn:E; eauto. Qed.
Lemma send_self_np T a x s : calm T s -> ordinary a -> 0 < x -> send_coins a a x s <> Panic.
Proof.
  intros H Ha Hx. destruct (Z.le_gt_cases x (bal s a)).
  - by rewrite (self_run T).
  - unfold send_coins, sub_coins, bind, gets. rewrite (proj2 (Z.eqb_neq x 0)) by lia. by rewrite (proj2 (Z.ltb_lt _ _)).
Qed.
Lemma escrow_ordinary p ch : ordinary (AEscrow p ch).
Proof. done. Qed.
Lemma warp_ordinary : ordinary WarpA.
Proof. done. Qed.
Lemma ibc_transfer_np T c o chan rc x s : calm T s -> 0 < x -> ibc_transfer c o chan (AEscrow transfer_port chan) rc x s <> Panic.
Proof.
  intros H Hx. unfold ibc_transfer. destruct o; try done; (apply bind_np; [by eapply send_self_np|]); intros s1 [] _;
    unfold ics4_send_packet, bind, gets, fail, modify; cbn; by repeat case_match.
Qed.
Lemma warp_transfer_np T o tok col domain rc x s : calm T s -> 0 < x <= 2 ^ 200 -> 0 <= col < 2 ^ 250 -> warp_transfer o tok col WarpA domain rc x s <> Panic.
Proof.
  intros H Hx Hc. unfold warp_transfer. destruct o; try done; (apply bind_np; [apply (send_self_np T); [done|done|lia]|]); intros s1 [] _;
    unfold bind, lift, int_add; rewrite int_chk_run by (unfold int_range; lia); done.
Qed.
Lemma increment_retry_run p id z s (Q : state -> unit -> Prop) : int_range (retry s (p, id) + z) -> Q (add_retry s (p, id) z) tt -> runs (increment_retry p id z) s Q.
Proof.
  intros H HQ. eapply (runs_spec _ _ _ (fun _ _ => True)); [|by apply (increment_retry_spec p id z s Q (fun _ _ => True))].
  unfold increment_retry, get_retry. apply runs_bind, runs_gets, runs_bind. eapply runs_lift; [by apply int_chk_run|by apply runs_modify].
Qed.
Lemma increment_ext_run p id z s (Q : state -> unit -> Prop) : int_range (ext_yield s (p, id) + z) -> Q (add_ext s (p, id) z) tt -> runs (increment_ext_yield p id z) s Q.
Proof.
  intros H HQ. eapply (runs_spec _ _ _ (fun _ _ => True)); [|by apply (increment_ext_spec p id z s Q (fun _ _ => True))].
  unfold increment_ext_yield. apply runs_bind, runs_gets, runs_bind. eapply runs_lift; [by apply int_chk_run|by apply runs_modify].
Qed.
Lemma retry_remove_run p id s (Q : state -> Z -> Prop) : Q (del_retry s (p, id)) (retry s (p, id)) -> runs (get_retry_and_remove p id) s Q.
Proof.
  intros HQ. eapply (runs_spec _ _ _ (fun _ _ => True)); [|by apply (retry_remove_spec p id s Q (fun _ _ => True))].
  unfold get_retry_and_remove, get_retry. apply runs_bind, runs_gets, runs_bind. apply whenb_run; intros; [by apply runs_modify|done].
Qed.

(** What stays the same when one account receives its yield. *)
Record only_paid (k : Z * string) (a : addr) (y : Z) (s s' : state) : Prop := {
  op_yield : bal s' YieldA = bal s YieldA - y;
  op_own : bal s' a = bal s a + y;
  op_bal : forall b, b <> a -> b <> YieldA -> bal s' b = bal s b;
  op_prin : forall b, prin s' b = prin s b;
  op_idx : current_index s' = current_index s;
  op_ext : forall j, j <> k -> ext_yield s' j = ext_yield s j;
  op_retry : forall j, j <> k -> retry s' j = retry s j
}.
Lemma calm_same T s s' : calm T s -> bk_bal (st_bank s') = bk_bal (st_bank s) -> d_principal (st_dollar s') = d_principal (st_dollar s) ->
  current_index s' = current_index s -> calm T s'.
Proof.
  intros [] E1 E2 E3. split; auto.
  - intros a. rewrite bal_mget, E1, <- bal_mget. auto.
  - by rewrite E1.
  - intros a. rewrite prin_mget, E2, <- prin_mget. auto.
  - by rewrite E3.
Qed.
Lemma calm_del T s k : calm T s -> calm T (del_retry s k).
Proof. intros H. unfold del_retry. case_match; [|done]. by eapply calm_same. Qed.
Lemma retry_del' s k j : j <> k -> retry (del_retry s k) j = retry s j.
Proof. intros H. unfold del_retry. case_match; [|done]. unfold retry, mget. cbn. by rewrite lookup_delete_ne. Qed.
Lemma retry_del_own s k : 0 <= retry s k -> retry (del_retry s k) k = 0.
Proof. intros H. unfold del_retry. destruct (Z.ltb_spec 0 (retry s k)); [|lia]. unfold retry, mget. cbn. by rewrite lookup_delete. Qed.
Lemma pay_paid s a y k : a <> YieldA -> 0 <= y -> only_paid k a y s (pay s a y).
Proof.
  intros Ha Hy. unfold pay. destruct (Z.ltb_spec 0 y); [rewrite send_from_yield|].
  - split; try done; unfold bal; cbn; intros; fold (mget (bk_bal (st_bank s)) YieldA).
    + change (default 0 (?m !! ?k)) with (mget m k). rewrite !mget_addz. repeat case_decide; congruence || lia.
    + change (default 0 (?m !! ?k)) with (mget m k). rewrite !mget_addz. repeat case_decide; congruence || lia.
    + change (default 0 (?m !! ?k)) with (mget m k). rewrite !mget_addz. repeat case_decide; congruence || lia.
  - split; try done; intros; lia.
Qed.
Lemma paid_books k a y s s1 s2 : only_paid k a y s s1 -> bk_bal (st_bank s2) = bk_bal (st_bank s1) -> d_principal (st_dollar s2) = d_principal (st_dollar s1) ->
  current_index s2 = current_index s1 -> (forall j, j <> k -> ext_yield s2 j = ext_yield s1 j) -> (forall j, j <> k -> retry s2 j = retry s1 j) ->
  only_paid k a y s s2.
Proof.
  intros [] E1 E2 E3 E4 E5. split; rewrite ?bal_mget, ?E1, <- ?bal_mget; auto.
  - intros b. rewrite bal_mget, E1, <- bal_mget. auto.
  - intros b. rewrite prin_mget, E2, <- prin_mget. auto.
  - by rewrite E3.
  - intros j Hj. rewrite E4 by done. auto.
  - intros j Hj. rewrite E5 by done. auto.
Qed.
Lemma paid_self k a y s s1 b z : only_paid k a y s s1 -> ordinary b -> only_paid k a y s (send_result s1 b b z).
Proof.
  intros [] [H1 H2].
  assert (B : forall j, bal (send_result s1 b b z) j = bal s1 j) by (intros; rewrite bal_send; lia).
  split; rewrite ?B; auto; intros; rewrite ?B; auto. rewrite prin_send by done. rewrite Z.sub_add. auto.
Qed.
Lemma ibc_one_run T c x ch rc s : let esc := AEscrow transfer_port ch in let k := (IBC, ch) in calm T s -> c_blocked c esc = false ->
  yield_of s esc <= bal s YieldA -> 0 <= retry s k < 2 ^ 180 -> Z.abs (ext_yield s k) < 2 ^ 250 ->
  runs (claim_ibc_one c x (ch, rc)) s (fun s' _ => calm T s' /\ only_paid k esc (yield_of s esc) s s').
Proof.
  intros esc k H Hb Hy Hr He. unfold claim_ibc_one. cbn [fst snd]. fold esc. set (y := yield_of s esc) in *.
  assert (Hy0 : 0 <= y) by apply yield_of_nonneg. apply runs_bind. apply (claim_module_run T); auto. fold y.
  assert (H1 : calm T (pay s esc y)) by (by apply calm_pay). assert (P1 : only_paid k esc y s (pay s esc y)) by (by apply pay_paid).
  assert (Hye : y <= 2 ^ 180) by (pose proof (calm_le _ _ YieldA H); pose proof (cm_small _ _ H); lia).
  set (s1 := pay s esc y) in *.
  assert (Es1 : eside s1 = eside s) by apply eside_pay. apply eside_parts in Es1 as (X1 & X2 & _).
  assert (R1 : retry s1 k = retry s k) by (unfold retry; by rewrite X2).
  assert (E1 : ext_yield s1 k = ext_yield s k) by (unfold ext_yield; by rewrite X1).
  apply runs_bind, retry_remove_run. fold k. rewrite R1. set (s2 := del_retry s1 k).
  assert (H2 : calm T s2) by (by apply calm_del).
  assert (F2 : st_bank s2 = st_bank s1 /\ d_principal (st_dollar s2) = d_principal (st_dollar s1) /\ current_index s2 = current_index s1 /\ d_ext_yield (st_dollar s2) = d_ext_yield (st_dollar s1)).
  { unfold s2, del_retry. by case_match. }
  destruct F2 as (F2 & F3 & F4 & F5).
  assert (P2 : only_paid k esc y s s2).
  { eapply paid_books; [exact P1|by rewrite F2|done|done|intros; unfold ext_yield; by rewrite F5|intros; by apply retry_del']. }
  assert (R2 : retry s2 k = 0) by (apply retry_del_own; lia).
  assert (E2 : ext_yield s2 k = ext_yield s k) by (unfold ext_yield; rewrite F5; exact E1).
  apply runs_bind. eapply runs_lift; [apply int_chk_run; unfold int_range; lia|].
  destruct (Z.ltb_spec 0 (y + retry s k)) as [Hp|Hp]; cbn [negb]; [|by apply runs_ret].
  apply runs_bind.
  assert (Hfin : forall (s3 : state) b, (s3 = s2 \/ y + retry s k <= bal s2 esc /\ s3 = send_result s2 esc esc (y + retry s k)) ->
    runs (whenb (negb b) (increment_retry IBC ch (y + retry s k));;; increment_ext_yield IBC ch y) s3 (fun s' _ => calm T s' /\ only_paid k esc y s s')).
  { intros s3 b Hs3.
    assert (calm T s3 /\ only_paid k esc y s s3 /\ retry s3 k = 0 /\ ext_yield s3 k = ext_yield s k) as (H3 & P3 & R3 & E3).
    { destruct Hs3 as [->|[Hle ->]]; [done|]. split; [apply calm_self; [done|done|lia]|]. split; [by apply paid_self|]. done. }
    apply runs_bind. apply whenb_run; intros _.
    - apply increment_retry_run; [fold k; unfold int_range; lia|]. fold k. apply increment_ext_run; [fold k; change (ext_yield (add_retry s3 k (y + retry s k)) k) with (ext_yield s3 k); unfold int_range; lia|].
      split; [by eapply calm_same|]. eapply paid_books; [exact P3|done|done|done| |]; intros j Hj.
      + fold k. unfold ext_yield at 1. cbn. rewrite mget_addz. rewrite decide_False by done. by rewrite Z.add_0_r.
      + fold k. unfold retry at 1. cbn. rewrite mget_addz. rewrite decide_False by done. by rewrite Z.add_0_r.
    - apply increment_ext_run; [fold k; unfold int_range; lia|].
      split; [by eapply calm_same|]. eapply paid_books; [exact P3|done|done|done| |done]; intros j Hj.
      fold k. unfold ext_yield at 1. cbn. rewrite mget_addz. rewrite decide_False by done. by rewrite Z.add_0_r. }
  set (m := ibc_transfer c (o_ibc x ch) ch esc rc (y + retry s k)).
  assert (W : wp m s2 (fun s3 _ => exists p, y + retry s k <= bal s2 esc /\ s3 = push (send_result s2 esc esc (y + retry s k)) p)
     (fun s3 _ => s3 = s2 \/ y + retry s k <= bal s2 esc /\ s3 = send_result s2 esc esc (y + retry s k))).
  { apply ibc_transfer_spec; [done|done| | |]; intros; eauto. }
  assert (NP : m s2 <> Panic) by (by apply (ibc_transfer_np T)).
  apply runs_try; [done| |].
  - intros s3 [] E. apply (wp_ok _ _ _ _ _ _ W) in E as (p & Hle & ->).
    assert (R3 := Hfin (send_result s2 esc esc (y + retry s k)) true ltac:(right; done)).
    cbn [negb whenb]. unfold runs, bind, ret in *. cbn [negb whenb] in *.
    revert R3. unfold increment_ext_yield, bind, gets, lift, modify. cbn.
    destruct (int_add _ y) eqn:Ei; try done. intros [Q1 Q2]. split; [by eapply calm_same|].
    eapply paid_books; [exact Q2|done|done|done|done|done].
  - intros s3 e E. apply (wp_err _ _ _ _ _ _ W) in E. by apply Hfin.
Qed.
Lemma yield_same s s' a : bal s' a = bal s a -> prin s' a = prin s a -> current_index s' = current_index s -> yield_of s' a = yield_of s a.
Proof. intros E1 E2 E3. unfold yield_of. by rewrite E1, E2, E3. Qed.
Lemma ibc_loop_run T c x Y l : (forall ch, c_blocked c (AEscrow transfer_port ch) = false) -> 0 <= Y -> NoDup l.*1 -> forall s, calm T s ->
  (forall ch, ch ∈ l.*1 -> 0 <= retry s (IBC, ch) < 2 ^ 180 /\ Z.abs (ext_yield s (IBC, ch)) < 2 ^ 250) ->
  list_sum (fun cr => yield_of s (AEscrow transfer_port cr.1)) l + Y <= bal s YieldA ->
  runs (for_each (claim_ibc_one c x) l) s (fun s' _ => calm T s' /\ Y <= bal s' YieldA).
Proof.
  intros Hb HY. induction l as [|[ch rc] l IH]; intros Hn s H Hk Hs.
  { apply runs_ret. unfold list_sum in Hs. cbn in Hs. split; [done|lia]. }
  apply NoDup_cons in Hn as [Hni Hn]. cbn [for_each]. apply runs_bind.
  assert (Hpos : forall s l, 0 <= list_sum (fun cr : string * string => yield_of s (AEscrow transfer_port cr.1)) l).
  { clear. intros s l. induction l as [|[ch rc] l IH]; unfold list_sum in *; cbn; [lia|]. pose proof (yield_of_nonneg s (AEscrow transfer_port ch)). lia. }
  assert (Hc : list_sum (fun cr : string * string => yield_of s (AEscrow transfer_port cr.1)) ((ch, rc) :: l) =
    yield_of s (AEscrow transfer_port ch) + list_sum (fun cr => yield_of s (AEscrow transfer_port cr.1)) l) by done.
  rewrite Hc in Hs. pose proof (Hpos s l). destruct (Hk ch) as [K1 K2]; [by left|].
  eapply runs_mono; [apply (ibc_one_run T); auto; lia|]. cbn beta. intros s1 [] [H1 P1]. apply IH; auto.
  - intros ch' Hin. assert (ch' <> ch) by (intros ->; auto). rewrite (op_retry _ _ _ _ _ P1), (op_ext _ _ _ _ _ P1) by congruence. apply Hk. by right.
  - rewrite (op_yield _ _ _ _ _ P1). enough (list_sum (fun cr : string * string => yield_of s1 (AEscrow transfer_port cr.1)) l = list_sum (fun cr => yield_of s (AEscrow transfer_port cr.1)) l) by lia.
    clear - Hni P1. induction l as [|[ch' rc'] l IH]; [done|]. cbn in Hni. apply not_elem_of_cons in Hni as [Hn1 Hn2]. unfold list_sum in *. cbn. rewrite IH by done.
    f_equal. apply yield_same; [|apply P1|apply P1]. apply P1; [cbn; congruence|done].
Qed.

(** * Hyperlane *)
Lemma collect_run c l : forall total s, (forall id rc, (id, rc) ∈ l -> exists h, c_hex c id = Some h /\ is_Some (x_tokens (st_world s) !! internal_id h)) ->
  (forall t v, x_tokens (st_world s) !! t = Some v -> 0 <= v) ->
  0 <= total -> total + list_sum (fun ir => collateral_of c s ir.1) l < 2 ^ 200 -> runs (collect_routes c l total) s (fun s' r => s' = s).
Proof.
  induction l as [|[id rc] l IH]; intros total s Hl Hn Ht Hs; cbn [collect_routes]; [by apply runs_ret|].
  assert (Hpos : forall l, 0 <= list_sum (fun ir : string * string => collateral_of c s ir.1) l).
  { clear - Hn. intros l. induction l as [|[i r] l IH]; unfold list_sum in *; cbn; [lia|]. enough (0 <= collateral_of c s i) by lia.
    unfold collateral_of. destruct (c_hex c i); [|lia]. destruct (x_tokens _ !! _) eqn:E; cbn; [eauto|lia]. }
  assert (Hc : list_sum (fun ir : string * string => collateral_of c s ir.1) ((id, rc) :: l) = collateral_of c s id + list_sum (fun ir => collateral_of c s ir.1) l) by done.
  rewrite Hc in Hs. pose proof (Hpos l).
  destruct (Hl id rc) as (h & Eh & [col Ec]); [by left|]. rewrite Eh. assert (Eco : collateral_of c s id = col) by (unfold collateral_of; rewrite Eh; change (be_decode (drop 24 h)) with (internal_id h); by rewrite Ec).
  pose proof (Hn _ _ Ec). apply runs_bind, runs_gets. rewrite Ec. apply runs_bind. eapply runs_lift; [apply int_chk_run; unfold int_range; lia|].
  apply runs_bind. eapply runs_mono; [apply IH; auto; [|lia|lia]|]; [intros id' rc' Hin; apply (Hl id' rc'); by right|].
  cbn beta. intros s1 r ->. by apply runs_ret.
Qed.
Lemma portion_run col total y : 0 <= col <= total -> 0 < total < 2 ^ 200 -> 0 <= y < 2 ^ 200 -> exists q, yield_portion col total y = POk q /\ 0 <= q <= y.
Proof.
  intros Hc Ht Hy. assert (Hq : 0 <= col * e18 / total <= e18).
  { split; [apply Z.div_pos; unfold e18; lia|]. apply Z.div_le_upper_bound; [lia|]. apply Z.mul_le_mono_nonneg_r; [unfold e18; lia|lia]. }
  assert (Hm : 0 <= col * e18 / total * y <= e18 * y) by (split; [apply Z.mul_nonneg_nonneg; lia|apply Z.mul_le_mono_nonneg_r; lia]).
  assert (Hm2 : 0 <= col * e18 / total * y / e18 <= y).
  { split; [apply Z.div_pos; [lia|unfold e18; lia]|]. apply Z.div_le_upper_bound; [unfold e18; lia|lia]. }
  exists (col * e18 / total * y / e18). split; [|done]. unfold yield_portion, dec_quo_int, dec_of_int, pbind, dec_mul_int, dec_truncate.
  rewrite (proj2 (Z.eqb_neq total 0)) by lia.
  assert (E1 : Z.quot (col * e18) total = col * e18 / total) by (apply Z.quot_div_nonneg; [unfold e18; lia|lia]). rewrite E1.
  set (m := col * e18 / total * y) in *. clearbody m. unfold dec_fits. rewrite (proj2 (Z.ltb_lt _ _)).
  2:{ rewrite Z.abs_eq by lia. apply Z.le_lt_trans with (e18 * y); [lia|]. unfold e18. lia. }
  assert (E2 : Z.quot m e18 = m / e18) by (apply Z.quot_div_nonneg; [lia|unfold e18; lia]). rewrite E2.
  apply int_chk_run. clear Hq Hm E1 E2 Hc Ht. set (q := m / e18) in *. clearbody q. clear m. unfold int_range. lia.
Qed.
Record only_route (k : Z * string) (s s' : state) : Prop := {
  or_ext : forall j, j <> k -> ext_yield s' j = ext_yield s j;
  or_retry : forall j, j <> k -> retry s' j = retry s j;
  or_rout : x_routers (st_world s') = x_routers (st_world s)
}.
Lemma hyp_one_run T c x total y h s : let k := (HYPERLANE, hr_id h) in calm T s -> 0 <= hr_collateral h <= total -> 0 < total < 2 ^ 200 -> 0 <= y < 2 ^ 190 ->
  0 <= retry s k < 2 ^ 180 -> Z.abs (ext_yield s k) < 2 ^ 250 ->
  (exists d, x_routers (st_world s) !! hr_token h = Some [d]) -> is_Some (c_hex c (hr_recipient h)) ->
  runs (claim_hyp_one c x total y h) s (fun s' _ => calm T s' /\ only_route k s s').
Proof.
  intros k H Hc Ht Hy Hr He [d Hd] [rc Hrc]. unfold claim_hyp_one.
  destruct (portion_run (hr_collateral h) total y) as (q & Eq & Hq); [lia|lia|lia|].
  apply runs_bind. eapply runs_lift; [exact Eq|]. apply runs_bind, retry_remove_run. fold k. set (s2 := del_retry s k).
  assert (H2 : calm T s2) by (by apply calm_del).
  assert (F2 : st_bank s2 = st_bank s /\ d_ext_yield (st_dollar s2) = d_ext_yield (st_dollar s) /\ st_world s2 = st_world s).
  { unfold s2, del_retry. by case_match. }
  destruct F2 as (F2 & F5 & F6).
  assert (R2 : retry s2 k = 0) by (apply retry_del_own; lia).
  assert (E2 : forall j, ext_yield s2 j = ext_yield s j) by (intros; unfold ext_yield; by rewrite F5).
  assert (O2 : forall j, j <> k -> retry s2 j = retry s j) by (intros; by apply retry_del').
  apply runs_bind. eapply runs_lift; [apply int_chk_run; unfold int_range; lia|]. set (z := q + retry s k).
  destruct (Z.ltb_spec 0 z) as [Hp|Hp]; cbn [negb].
  2:{ apply runs_ret. split; [done|]. split; auto. by rewrite F6. }
  apply runs_bind. unfold get_router. apply runs_bind, runs_gets. rewrite F6, Hd. cbn [default from_option Datatypes.id]. apply runs_ret. rewrite Hrc.
  apply runs_bind. set (m := warp_transfer _ _ _ _ _ _ _).
  set (t2 := set_token (send_result s2 WarpA WarpA z) (hr_token h) (hr_collateral h + z)).
  assert (W : wp m s2 (fun s3 _ => z <= bal s2 WarpA /\ exists msg, s3 = dispatch t2 msg) (fun s3 _ => s3 = s2 \/ z <= bal s2 WarpA /\ s3 = t2)).
  { apply warp_transfer_spec; [done|done| | |]; intros; eauto. }
  assert (NP : m s2 <> Panic) by (apply (warp_transfer_np T); [done|subst z; lia|lia]).
  assert (Hgood : forall s3, (s3 = s2 \/ z <= bal s2 WarpA /\ (s3 = t2 \/ exists msg, s3 = dispatch t2 msg)) ->
     calm T s3 /\ (forall j, ext_yield s3 j = ext_yield s j) /\ (forall j, retry s3 j = retry s2 j) /\ x_routers (st_world s3) = x_routers (st_world s)).
  { intros s3 [->|[Hle Hs3]]; [by rewrite F6|].
    assert (Ht2 : calm T t2) by (eapply (calm_same T (send_result s2 WarpA WarpA z)); [apply calm_self; [done|done|lia]|done|done|done]).
    destruct Hs3 as [->|[msg ->]]; (split; [done || by eapply calm_same|]); (split; [exact E2|]); split; [done|cbn; by rewrite F6|done|cbn; by rewrite F6]. }
  assert (Hfin : forall s3 b, (s3 = s2 \/ z <= bal s2 WarpA /\ (s3 = t2 \/ exists msg, s3 = dispatch t2 msg)) ->
    runs (whenb (negb b) (increment_retry HYPERLANE (hr_id h) z);;; increment_ext_yield HYPERLANE (hr_id h) q) s3 (fun s' _ => calm T s' /\ only_route k s s')).
  { intros s3 b Hs3. destruct (Hgood _ Hs3) as (H3 & E3 & R3 & X3). apply runs_bind. apply whenb_run; intros _.
    - apply increment_retry_run; [fold k; rewrite R3, R2; unfold int_range; lia|].
      apply increment_ext_run; [change (int_range (ext_yield s3 k + q)); rewrite E3; unfold int_range; lia|]. fold k.
      split; [by eapply calm_same|]. split; [| |exact X3]; intros j Hj.
      + unfold ext_yield at 1. cbn. rewrite mget_addz. rewrite decide_False by done. rewrite Z.add_0_r. apply E3.
      + unfold retry at 1. cbn. rewrite mget_addz. rewrite decide_False by done. rewrite Z.add_0_r. fold (retry s3 j). rewrite R3. auto.
    - apply increment_ext_run; [fold k; rewrite E3; unfold int_range; lia|]. fold k.
      split; [by eapply calm_same|]. split; [| |exact X3]; intros j Hj.
      + unfold ext_yield at 1. cbn. rewrite mget_addz. rewrite decide_False by done. rewrite Z.add_0_r. apply E3.
      + change (retry s3 j = retry s j). rewrite R3. auto. }
  apply runs_try; [done| |].
  - intros s3 [] E. apply (wp_ok _ _ _ _ _ _ W) in E as (Hle & msg & ->). apply Hfin. eauto.
  - intros s3 e E. apply (wp_err _ _ _ _ _ _ W) in E. apply Hfin. destruct E as [->|[? ->]]; auto.
Qed.
Lemma hyp_loop_run T c x total y rs : 0 < total < 2 ^ 200 -> 0 <= y < 2 ^ 190 -> NoDup (hr_id <$> rs) -> forall s, calm T s ->
  (forall h, h ∈ rs -> 0 <= hr_collateral h <= total /\ 0 <= retry s (HYPERLANE, hr_id h) < 2 ^ 180 /\ Z.abs (ext_yield s (HYPERLANE, hr_id h)) < 2 ^ 250 /\
     (exists d, x_routers (st_world s) !! hr_token h = Some [d]) /\ is_Some (c_hex c (hr_recipient h))) ->
  runs (for_each (claim_hyp_one c x total y) rs) s (fun s' _ => True).
Proof.
  intros Ht Hy. induction rs as [|h rs IH]; intros Hn s H Hk; cbn [for_each]; [by apply runs_ret|].
  cbn in Hn. apply NoDup_cons in Hn as [Hni Hn]. destruct (Hk h) as (K1 & K2 & K3 & K4 & K5); [by left|].
  apply runs_bind. eapply runs_mono; [by apply (hyp_one_run T)|]. cbn beta. intros s1 [] [H1 O1]. apply IH; auto.
  intros h' Hin. assert (hr_id h' <> hr_id h). { intros E. apply Hni. rewrite <- E. by apply elem_of_list_fmap_1. }
  rewrite (or_retry _ _ _ O1), (or_ext _ _ _ O1), (or_rout _ _ _ O1) by congruence. apply Hk. by right.
Qed.

(** * The vaults *)
Lemma chop_bound z : 0 <= z -> 0 <= dec_chop_round z <= z / e18 + 1.
Proof.
  intros H. unfold dec_chop_round. rewrite Z.abs_eq by lia. assert (0 <= z / e18) by (apply Z.div_pos; unfold e18; lia).
  set (q := z / e18) in *. clearbody q. rewrite (proj2 (Z.ltb_ge z 0)) by lia. repeat case_match; lia.
Qed.
Lemma yield_principal_run y i : 0 <= y -> 0 < i < 2 ^ 63 -> y * e12 <= 2 ^ 150 * i -> exists yp, yield_principal y i = POk yp /\ 0 <= yp <= 2 ^ 151.
Proof.
  intros Hy Hi Hb. unfold yield_principal, dec_quo_int, dec_of_int. cbn [pbind].
  assert (E1 : Z.quot (i * e18) e12 = i * 1000000) by (unfold e18, e12; lia).
  change (e12 =? 0) with false. cbn beta iota. cbn [pbind]. rewrite E1. unfold dec_quo. rewrite (proj2 (Z.eqb_neq _ 0)) by lia.
  set (w := Z.quot (y * e18 * e18 * e18) (i * 1000000)).
  assert (Hw : 0 <= w /\ w <= 2 ^ 150 * e18 * e18).
  { subst w. rewrite Z.quot_div_nonneg by (unfold e18; lia). split; [apply Z.div_pos; unfold e18; lia|].
    apply Z.div_le_upper_bound; [lia|]. unfold e18, e12 in *. lia. }
  clearbody w. pose proof (chop_bound w ltac:(lia)) as Hc. set (r := dec_chop_round w) in *. clearbody r.
  assert (Hr : 0 <= r <= 2 ^ 150 * e18 + 1).
  { split; [lia|]. assert (w / e18 <= 2 ^ 150 * e18) by (apply Z.div_le_upper_bound; unfold e18 in *; lia). lia. }
  clear Hc. unfold dec_fits. rewrite (proj2 (Z.ltb_lt _ _)) by (unfold e18 in *; lia). cbn [pbind].
  exists (Z.quot r e18). unfold dec_truncate. assert (0 <= Z.quot r e18 <= 2 ^ 151) by (unfold e18 in *; lia).
  split; [|done]. apply int_chk_run. set (q := Z.quot r e18) in *. clearbody q. clear - H. unfold int_range. lia.
Qed.
Definition outside (a : addr) : Prop := a = WarpA \/ exists ch, a = AEscrow transfer_port ch.
Definition season_claims (s : state) : Z := (if v_ended (st_vaults s) then 0 else yield_of s FlexibleA) + yield_of s StakedA.
Lemma season_run T c i s : calm T s -> (forall a, Z.abs (prin s a) < 2 ^ 150) -> T * e12 <= 2 ^ 150 * current_index s -> good_collector s ->
  (v_ended (st_vaults s) = true -> ~ outside (v_collector (st_vaults s))) ->
  c_blocked c FlexibleA = false -> c_blocked c StakedA = false -> season_claims s <= bal s YieldA ->
  runs (if v_ended (st_vaults s) then vaults_yield_season_two c else vaults_yield_season_one c i) s
    (fun s' _ => calm T s' /\ bal s' YieldA = bal s YieldA - season_claims s /\ (forall a, outside a -> bal s' a = bal s a /\ prin s' a = prin s a) /\
       current_index s' = current_index s /\ eside s' = eside s).
Proof.
  intros H Hp HT Hg Hcol Hb1 Hb2 Hs.
  enough (R : runs (if v_ended (st_vaults s) then vaults_yield_season_two c else vaults_yield_season_one c i) s
    (fun s' _ => calm T s' /\ bal s' YieldA = bal s YieldA - season_claims s /\ (forall a, outside a -> bal s' a = bal s a /\ prin s' a = prin s a) /\
       current_index s' = current_index s)).
  { eapply runs_mono; [apply (runs_wp _ _ _ _ _ (season_eside c i s Hg) R)|]. cbn beta. tauto. }
  unfold season_claims in *. pose proof (yield_of_nonneg s FlexibleA) as HF. pose proof (yield_of_nonneg s StakedA) as HS.
  pose proof (cm_small _ _ H) as Hsm. pose proof (cm_idx _ _ H) as Hi. pose proof (calm_le _ _ YieldA H) as HyT.
  destruct (v_ended (st_vaults s)) eqn:Een.
  - specialize (Hcol eq_refl). destruct Hg as [Hg1 Hg2]. unfold vaults_yield_season_two. apply runs_bind. apply (claim_module_run T); [done|done|lia|].
    set (y := yield_of s StakedA) in *. assert (P1 := pay_paid s StakedA y (0, ""%string) ltac:(done) HS). assert (H1 := calm_pay T s StakedA y H ltac:(lia)).
    assert (V1 : st_vaults (pay s StakedA y) = st_vaults s) by (unfold pay; by case_match).
    destruct (Z.ltb_spec 0 y); cbn [negb].
    2:{ apply runs_ret. split; [done|]. split; [rewrite (op_yield _ _ _ _ _ P1); lia|]. split; [|apply P1]. intros a Ha. split; [|apply P1].
        apply P1; destruct Ha as [-> | [? ->]]; done. }
    set (s1 := pay s StakedA y) in *. apply runs_bind, runs_gets. rewrite V1. set (col := v_collector (st_vaults s)) in *.
    apply runs_bind. unfold new_coins. rewrite (proj2 (Z.ltb_ge _ _)) by lia. apply runs_ret.
    assert (Hup : 0 <= up y (current_index s1) <= 2 ^ 151).
    { rewrite (op_idx _ _ _ _ _ P1). split; [apply up_nonneg; lia|]. pose proof (up_bounds y (current_index s) ltac:(lia) ltac:(lia)) as [_ Hu].
      assert (y * e12 <= T * e12) by (apply Z.mul_le_mono_nonneg_r; [unfold e12; lia|lia]).
      set (u := up y (current_index s)) in *. clearbody u. assert (Hlt : u * current_index s < (2 ^ 150 + 1) * current_index s) by lia.
      apply Z.mul_lt_mono_pos_r in Hlt; lia. }
    assert (Hb : 0 < y <= bal s1 StakedA) by (rewrite (op_own _ _ _ _ _ P1); pose proof (cm_bal _ _ H StakedA); lia).
    assert (Hidx1 : current_index s1 = current_index s) by apply P1.
    assert (Fr : send_coins StakedA col y s1 = Ok (send_result s1 StakedA col y) tt).
    { pose proof (calm_le _ _ col H1). pose proof (cm_bal _ _ H1 col).
      apply send_run; [done|by split|done|lia|]. constructor; rewrite ?(op_prin _ _ _ _ _ P1); unfold int_range; rewrite ?Hidx1 in *.
      - unfold e12. lia.
      - pose proof (Hp StakedA). lia.
      - pose proof (Hp col). lia.
      - intros _. pose proof (Hp col). lia.
      - lia. }
    eapply runs_of_ok; [exact Fr|]. split.
    { split.
      - intros a. rewrite bal_send. unfold ind. pose proof (cm_bal _ _ H1 a). repeat case_decide; subst; lia.
      - rewrite sum_send. apply H1.
      - done.
      - intros a. rewrite prin_send by done. rewrite (op_prin _ _ _ _ _ P1). pose proof (Hp a). unfold ind. repeat case_decide; lia.
      - rewrite index_send, Hidx1. done. }
    split.
    { rewrite bal_send. unfold ind. rewrite !decide_False by done. rewrite (op_yield _ _ _ _ _ P1). lia. }
    split; [|by rewrite index_send].
    intros a Ha. assert (a <> StakedA /\ a <> YieldA) as [A1 A2] by (destruct Ha as [-> | [? ->]]; done). assert (A3 : a <> col) by (intros ->; auto).
    rewrite bal_send, prin_send by done. unfold ind. rewrite !decide_False by done.
    rewrite (op_bal _ _ _ _ _ P1), (op_prin _ _ _ _ _ P1) by done. split; lia.
  - unfold vaults_yield_season_one. apply runs_bind. apply (claim_module_run T); [done|done|lia|].
    set (fy := yield_of s FlexibleA) in *. assert (P1 := pay_paid s FlexibleA fy (0, ""%string) ltac:(done) HF). assert (H1 := calm_pay T s FlexibleA fy H ltac:(lia)).
    set (s1 := pay s FlexibleA fy) in *. assert (Hidx1 : current_index s1 = current_index s) by apply P1.
    assert (Ey : yield_of s1 StakedA = yield_of s StakedA) by (apply yield_same; apply P1; done).
    assert (Hsy : yield_of s1 StakedA <= bal s1 YieldA) by (rewrite (op_yield _ _ _ _ _ P1); lia).
    destruct (yield_principal_run (yield_of s StakedA) (current_index s)) as (yp & Eyp & Hyp); [done|done| |].
    { assert (yield_of s StakedA * e12 <= T * e12) by (apply Z.mul_le_mono_nonneg_r; [unfold e12; lia|lia]). lia. }
    apply runs_bind.
    assert (Hfin : forall s2 sy, 0 <= sy < 2 ^ 190 -> calm T s2 -> bal s2 YieldA = bal s YieldA - (fy + yield_of s StakedA) -> (forall a, outside a -> bal s2 a = bal s a /\ prin s2 a = prin s a) ->
       current_index s2 = current_index s ->
       runs (total <- gets (fun s => v_total_flex (st_vaults s));; r <- lift (int_add sy fy);; modify (fun s => s <| st_vaults; v_rewards ::= <[i := mk_reward i total r]> |>)) s2
        (fun s' _ => calm T s' /\ bal s' YieldA = bal s YieldA - (fy + yield_of s StakedA) /\ (forall a, outside a -> bal s' a = bal s a /\ prin s' a = prin s a) /\ current_index s' = current_index s)).
    { intros s2 sy Hsy2 H2 B2 O2 I2. apply runs_bind, runs_gets, runs_bind. eapply runs_lift; [apply int_chk_run; unfold int_range; lia|]. apply runs_modify.
      split; [by eapply calm_same|]. auto. }
    eapply (runs_spec _ _ _ (fun _ _ => True)).
    2:{ apply (claim_staked_spec c s1 (yield_of s1 StakedA) _ (fun _ _ => True)); [done| | |done].
      - intros E0. apply Hfin; [lia|done|rewrite (op_yield _ _ _ _ _ P1); lia| |done]. intros a Ha. split; apply P1; destruct Ha as [-> | [? ->]]; done.
      - intros yp' Hy' Eyp'. rewrite Ey, Hidx1, Eyp in Eyp'. injection Eyp' as <-. rewrite Ey in *.
        assert (Ep : send_result s1 YieldA FlexibleA (yield_of s StakedA) = pay s1 FlexibleA (yield_of s StakedA)) by (unfold pay; by rewrite (proj2 (Z.ltb_lt _ _)) by lia).
        rewrite Ep. set (s2 := pay s1 FlexibleA _). assert (P2 := pay_paid s1 FlexibleA (yield_of s StakedA) (0, ""%string) ltac:(done) HS). fold s2 in P2.
        assert (H2 := calm_pay T s1 FlexibleA (yield_of s StakedA) H1 ltac:(lia)). fold s2 in H2.
        assert (Hpr : forall a, prin (shiftp s2 yp) a = prin s2 a - ind (a = StakedA) yp + ind (a = FlexibleA) yp).
        { intros a. rewrite !prin_mget. unfold shiftp. cbn. rewrite !mget_addz. unfold ind. repeat case_decide; subst; try done; try congruence; lia. }
        apply Hfin; [lia| |change (bal s2 YieldA = bal s YieldA - (fy + yield_of s StakedA)); rewrite (op_yield _ _ _ _ _ P2), (op_yield _ _ _ _ _ P1); lia| |
          change (current_index s2 = current_index s); rewrite (op_idx _ _ _ _ _ P2); done].
        + split; try apply H2. intros a. rewrite Hpr, (op_prin _ _ _ _ _ P2), (op_prin _ _ _ _ _ P1). pose proof (Hp a). unfold ind. repeat case_decide; lia.
        + intros a Ha. assert (a <> StakedA /\ a <> YieldA /\ a <> FlexibleA) as (A1 & A2 & A3) by (destruct Ha as [-> | [? ->]]; done).
          rewrite Hpr. unfold ind. rewrite !decide_False by done. change (bal (shiftp s2 yp) a) with (bal s2 a).
          rewrite (op_bal _ _ _ _ _ P2), (op_bal _ _ _ _ _ P1), (op_prin _ _ _ _ _ P2), (op_prin _ _ _ _ _ P1) by done. split; lia. }
    unfold claim_staked_vault_yield. apply runs_bind. eapply yield_run; [exact H1|]. rewrite Ey. destruct (Z.ltb_spec 0 (yield_of s StakedA)); cbn [negb]; [|by apply runs_ret].
    apply runs_bind. unfold new_coins. rewrite (proj2 (Z.ltb_ge _ _)) by lia. apply runs_ret. apply runs_bind. unfold send_to_account. rewrite Hb1.
    eapply send_yield_run; [exact H1|lia|]. set (s2 := pay s1 FlexibleA _). assert (P2 := pay_paid s1 FlexibleA (yield_of s StakedA) (0, ""%string) ltac:(done) HS). fold s2 in P2.
    apply runs_bind. unfold get_index. apply runs_gets. rewrite (op_idx _ _ _ _ _ P2), Hidx1. apply runs_bind. eapply runs_lift; [exact Eyp|].
    apply runs_bind. unfold get_principal. apply runs_gets. apply runs_bind.
    assert (Q1 : forall a, Z.abs (prin s2 a) < 2 ^ 150) by (intros a; rewrite (op_prin _ _ _ _ _ P2), (op_prin _ _ _ _ _ P1); apply Hp).
    pose proof (Q1 StakedA). pose proof (Q1 FlexibleA).
    eapply runs_lift; [apply int_chk_run; unfold int_range; lia|]. apply runs_bind. apply runs_modify. apply runs_bind, runs_gets.
    apply runs_bind. eapply runs_lift.
    { apply int_chk_run. rewrite prin_mget. cbn. rewrite mget_insert_ne by done. rewrite <- prin_mget. unfold int_range. lia. }
    apply runs_bind. by apply runs_modify, runs_ret.
Qed.

(** * The whole update *)
Lemma hyp_ext_run T c x s : calm T s -> c_blocked c WarpA = false -> yield_of s WarpA <= bal s YieldA -> routes_usable c s -> enonneg s ->
  (forall id, retry s (HYPERLANE, id) < 2 ^ 180 /\ Z.abs (ext_yield s (HYPERLANE, id)) < 2 ^ 250) ->
  sum_routes s (collateral_of c s) < 2 ^ 180 -> runs (claim_external_hyp c x) s (fun _ _ => True).
Proof.
  intros H Hb Hy Hu Hn Hk Hcol. unfold claim_external_hyp. apply runs_bind, runs_gets. apply runs_bind. apply (claim_module_run T); auto.
  set (y := yield_of s WarpA) in *. assert (Hy0 : 0 <= y) by apply yield_of_nonneg.
  assert (P1 := pay_paid s WarpA y (0, ""%string) ltac:(done) Hy0). assert (H1 := calm_pay T s WarpA y H ltac:(lia)).
  assert (E1 : eside (pay s WarpA y) = eside s) by apply eside_pay. set (s1 := pay s WarpA y) in *.
  apply eside_parts in E1 as (X1 & X2 & X3 & _ & _ & X6 & X7 & _).
  destruct (Z.ltb_spec 0 y); cbn [negb]; [|by apply runs_ret]. apply runs_bind.
  assert (Hu' : forall id rc, (id, rc) ∈ recipients_of s HYPERLANE -> exists h d, c_hex c id = Some h /\ is_Some (x_tokens (st_world s1) !! internal_id h) /\
    x_routers (st_world s1) !! internal_id h = Some [d] /\ is_Some (c_hex c rc)).
  { intros id rc Hin%elem_recipients. destruct (Hu _ _ Hin) as (h & d & U1 & U2 & U3 & U4). exists h, d. by rewrite X6, X7. }
  assert (Hsum : list_sum (fun ir => collateral_of c s1 ir.1) (recipients_of s HYPERLANE) = sum_routes s (collateral_of c s)).
  { rewrite sum_recipients. unfold list_sum. f_equal. unfold collateral_of. by rewrite X6. }
  assert (Hn1 : enonneg s1) by (unfold enonneg, retry; rewrite X2, X6; exact Hn).
  assert (Hc := collect_run c (recipients_of s HYPERLANE) 0 s1 ltac:(intros id rc Hin; destruct (Hu' _ _ Hin) as (h & d & ? & ? & _); eauto) ltac:(apply Hn1) ltac:(lia) ltac:(lia)).
  eapply runs_mono; [apply (runs_wp _ _ _ _ _ (collect_routes_ok c (recipients_of s HYPERLANE) 0 s1) Hc)|]. cbn beta.
  intros s2 [tot rs] [(-> & R1 & R2) _]. cbn [fst snd] in *. rewrite (routes_collateral _ _ _ _ R1), Hsum, Z.add_0_l in R2.
  destruct (Z.ltb_spec 0 tot); cbn [negb]; [|by apply runs_ret].
  destruct (routes_proper c s1 (recipients_of s HYPERLANE) rs Hn1) with (2 := R1) as [R3 R4].
  { intros id rc Hin%elem_recipients. by rewrite X3. }
  apply (hyp_loop_run T); [lia| |rewrite R4; apply nodup_recipients|done|].
  { split; [done|]. pose proof (calm_le _ _ YieldA H). pose proof (cm_small _ _ H). lia. }
  intros h Hin. pose proof (proj1 (Forall_forall _ _) R3 h Hin) as (Q1 & Q2 & b & Q3 & Q4).
  assert (Hrec : (hr_id h, hr_recipient h) ∈ recipients_of s HYPERLANE) by (apply elem_recipients; by rewrite <- X3).
  destruct (Hu' _ _ Hrec) as (h' & d & U1 & U2 & U3 & U4). assert (h' = b) as -> by congruence.
  assert (hr_collateral h <= tot).
  { assert (Htot : list_sum hr_collateral rs = tot) by (rewrite (routes_collateral _ _ _ _ R1); lia). rewrite <- Htot.
    clear - R3 Hin. induction rs as [|g rs IH]; [by apply elem_of_nil in Hin|]. apply Forall_cons in R3 as [[G1 _] R3].
    assert (0 <= list_sum hr_collateral rs) by (clear - R3; induction rs as [|g rs IH]; unfold list_sum in *; cbn; [lia|]; apply Forall_cons in R3 as [[? _] ?]; specialize (IH ltac:(done)); lia).
    assert (Ecs : list_sum hr_collateral (g :: rs) = hr_collateral g + list_sum hr_collateral rs) by done. rewrite Ecs.
    apply elem_of_cons in Hin as [->|Hin]; [lia|]. specialize (IH R3 Hin). lia. }
  destruct (Hk (hr_id h)) as [K1 K2]. assert (retry s1 (HYPERLANE, hr_id h) = retry s (HYPERLANE, hr_id h)) as -> by (unfold retry; by rewrite X2).
  assert (ext_yield s1 (HYPERLANE, hr_id h) = ext_yield s (HYPERLANE, hr_id h)) as -> by (unfold ext_yield; by rewrite X1).
  split; [lia|]. split; [split; [apply Hn|done]|]. split; [done|]. rewrite Q4. eauto.
Qed.
Lemma sum_channels_list s f : sum_channels s f = list_sum (fun ir => f ir.1) (recipients_of s IBC).
Proof.
  unfold sum_channels, recipients_of. rewrite (list_sum_perm _ _ _ (merge_sort_Permutation _ _)). unfold map_fold. cbn.
  induction (map_to_list (d_recipients (st_dollar s))) as [|[[p id] rc] l IH]; [done|].
  cbn. destruct (decide (p = IBC)); [|by rewrite IH]. unfold list_sum in *. cbn. by rewrite IH.
Qed.
Lemma accrue_run i s n (Q : state -> unit -> Prop) : n = present (total_principal s) i - supply s -> bal s ModuleA = 0 -> 0 <= n ->
  0 <= supply s -> 0 <= bal s YieldA <= supply s -> Z.abs (total_principal s * i) < 2 ^ 250 -> Z.abs (ds_yield (d_stats (st_dollar s))) < 2 ^ 250 ->
  Q (accrued s i n n) tt -> runs (accrue_yield i) s Q.
Proof.
  intros Hn Hm Hn0 Hs Hyb Ht Hy HQ. assert (Hpr : Z.abs (present (total_principal s) i) < 2 ^ 250).
  { unfold present. set (w := total_principal s * i) in *. clearbody w. unfold e12. lia. }
  eapply (runs_spec _ _ _ (fun _ _ => True)); [|apply (accrue_spec i s n Q (fun _ _ => True)); auto; lia].
  unfold accrue_yield. apply runs_bind, runs_modify. set (s1 := s <| st_dollar; d_index := i |>).
  apply runs_bind. unfold get_total_principal. apply runs_gets. change (total_principal s1) with (total_principal s).
  apply runs_bind, runs_gets. change (supply s1) with (supply s). apply runs_bind.
  eapply runs_lift; [apply present_amount_run; unfold int_range; lia|]. apply runs_bind.
  eapply runs_lift; [apply int_chk_run; unfold int_range; lia|]. rewrite <- Hn. apply runs_bind. unfold new_coins. rewrite (proj2 (Z.ltb_ge _ _)) by lia. apply runs_ret.
  apply whenb_run; [|done]. intros Hp%Z.ltb_lt. apply runs_bind.
  apply mint_coins_run; [done|change (bal s1 ModuleA) with (bal s ModuleA); unfold int_range; lia|change (supply s1) with (supply s); unfold int_range; lia|].
  intros s2 M1 M2 M3 _ _ _. apply runs_bind. unfold send_coins. rewrite (proj2 (Z.eqb_neq _ 0)) by lia. apply runs_bind. unfold sub_coins. apply runs_bind, runs_gets.
  assert (Bm : bal s2 ModuleA = n) by (rewrite M2; change (bal s1 ModuleA) with (bal s ModuleA); unfold ind; rewrite decide_True by done; lia).
  rewrite (proj2 (Z.ltb_ge _ _)) by lia. apply runs_modify. apply runs_bind. unfold send_restriction. rewrite (proj2 (Z.eqb_neq _ 0)) by lia.
  rewrite bool_decide_false by done. rewrite !bool_decide_true by done. apply runs_ret. apply runs_bind. unfold add_coins. apply runs_bind, runs_gets, runs_bind.
  eapply runs_lift.
  { apply int_chk_run. unfold bal. cbn. rewrite lookup_insert_ne by done. fold (bal s2 YieldA). rewrite M2. change (bal s1 YieldA) with (bal s YieldA).
    unfold ind. rewrite decide_False by done. unfold int_range. lia. }
  apply runs_modify, runs_modify. unfold increment_total_yield. apply runs_bind, runs_gets, runs_bind. cbn. rewrite M3. cbn.
  eapply runs_lift; [apply int_safe_add_run; unfold int_range; lia|]. done.
Qed.
Lemma claim_at_ge s i a : 0 <= bal s a -> (let y := present (prin s a) i - bal s a in if int_fits y && (1 <? y) then y else 0) <= claim_at s i a.
Proof.
  intros Hb. unfold claim_at, floor_div, present. change unit_index with e12. cbn zeta. set (q := prin s a * i). clearbody q.
  assert (Hq : 0 <= q -> Z.quot q e12 = q / e12) by (intros; apply Z.quot_div_nonneg; unfold e12; lia).
  destruct (Z.le_gt_cases 0 q) as [H0|H0].
  - rewrite Hq by done. set (w := q / e12 - bal s a). clearbody w. destruct (Z.leb_spec w 1), (Z.ltb_spec 1 w), (int_fits w); cbn; lia.
  - assert (q / e12 <= 0) by (unfold e12; lia). assert (Z.quot q e12 <= 0) by (unfold e12; lia).
    rewrite (proj2 (Z.leb_le _ 1)) by lia. rewrite (proj2 (Z.ltb_ge 1 _)) by lia. by rewrite andb_false_r.
Qed.
Lemma list_sum_mono {A} (f g : A -> Z) l : (forall a, f a <= g a) -> list_sum f l <= list_sum g l.
Proof. intros H. induction l as [|a l IH]; unfold list_sum in *; cbn; [lia|]. specialize (H a). lia. Qed.

Lemma update_run c x i s : chain_ok c -> wfs c s -> solid s -> enonneg s -> claims_unblocked c -> current_index s < i < 2 ^ 63 ->
  supply s <= floor_div (total_principal s * i) unit_index ->
  index_claims s i <= bal s YieldA + (floor_div (total_principal s * i) unit_index - supply s) ->
  (v_ended (st_vaults s) = true -> ~ outside (v_collector (st_vaults s))) -> routes_usable c s -> update_in_range c s ->
  runs (update_index c x i) s (fun _ _ => True).
Proof.
  intros Hc Hw [Hsol Hbn] Hn (B1 & B2 & B3 & B4) Hi Hsup Hcl Hcol Hu [U1 U2 U3 U4 U5 U6].
  pose proof (wf_index _ _ Hw) as Hidx. pose proof (wf_module _ _ Hw) as Hmod.
  unfold floor_div in *. change unit_index with e12 in *.
  assert (Hs0 : 0 <= supply s).
  { rewrite <- Hsol. etrans; [apply (Hbn YieldA)|]. rewrite bal_mget. apply msum_get_le. intros j. rewrite <- bal_mget. apply Hbn. }
  assert (HYs : bal s YieldA <= supply s).
  { rewrite <- Hsol, bal_mget. apply msum_get_le. intros j. rewrite <- bal_mget. apply Hbn. }
  assert (Htp : 0 <= total_principal s * i). { destruct (Z.le_gt_cases 0 (total_principal s * i)); [done|]. assert (total_principal s * i / e12 < 0) by (apply Z.div_lt_upper_bound; unfold e12; lia). lia. }
  assert (Htp0 : 0 <= total_principal s) by nia.
  assert (Hpr : present (total_principal s) i = total_principal s * i / e12) by (unfold present; apply Z.quot_div_nonneg; [done|unfold e12; lia]).
  set (X := total_principal s * i) in *.
  assert (HX : X < 2 ^ 150 * i) by (subst X; apply Z.mul_lt_mono_pos_r; lia).
  assert (HX' : X / e12 * e12 <= X) by (unfold e12; lia).
  set (n := present (total_principal s) i - supply s).
  unfold update_index. apply runs_bind. unfold get_index. apply runs_gets. rewrite (proj2 (Z.leb_gt _ _)) by lia.
  apply runs_bind. apply (accrue_run i s n); [done|done|lia|done|by split; [apply Hbn|]| |done|].
  { fold X. rewrite Z.abs_eq by done. apply Z.lt_le_trans with (2 ^ 150 * 2 ^ 63); [|done]. lia. }
  set (s1 := accrued s i n n). destruct (frame_accrued s i n n) as (F1 & F2 & F3 & _ & _ & F6 & F7 & _ & F9 & _ & F11 & F12). fold s1 in F1, F2, F3, F6, F7, F9, F11, F12.
  assert (Hb1 : forall a, bal s1 a = bal s a + ind (a = YieldA) n) by (intros; apply bal_accrued; lia).
  assert (Hbo : forall a, a <> YieldA -> bal s1 a = bal s a) by (intros; rewrite Hb1; unfold ind; rewrite decide_False by done; lia).
  assert (Hp1 : forall a, prin s1 a = prin s a) by (intros; rewrite !prin_mget; by rewrite F2).
  assert (HY1 : bal s1 YieldA = bal s YieldA + n) by (rewrite Hb1; unfold ind; by rewrite decide_True by done).
  set (T := X / e12).
  assert (HT : T * e12 <= 2 ^ 150 * i) by (subst T; lia).
  assert (C1 : calm T s1).
  { split.
    - intros a. rewrite Hb1. pose proof (Hbn a). unfold ind. case_decide; lia.
    - subst s1. rewrite bsum_accrued by lia. rewrite Hsol. lia.
    - subst T. apply Z.div_lt_upper_bound; [unfold e12; lia|]. apply Z.lt_le_trans with (2 ^ 150 * 2 ^ 63); [lia|]. unfold e12. lia.
    - intros a. rewrite Hp1. pose proof (U2 a). lia.
    - rewrite F1. lia. }
  assert (Hya : forall a, a <> YieldA -> yield_of s1 a <= claim_at s i a).
  { intros a Ha. etrans; [|by apply claim_at_ge, Hbn]. unfold yield_of. rewrite Hbo, Hp1, F1 by done. done. }
  assert (Hs1 : season_claims s1 + list_sum (fun cr => yield_of s1 (AEscrow transfer_port cr.1)) (recipients_of s IBC) + yield_of s1 WarpA <= bal s1 YieldA).
  { rewrite HY1. unfold season_claims. rewrite F11. unfold index_claims in Hcl. rewrite sum_channels_list in Hcl.
    pose proof (Hya FlexibleA ltac:(done)). pose proof (Hya StakedA ltac:(done)). pose proof (Hya WarpA ltac:(done)).
    assert (list_sum (fun cr : string * string => yield_of s1 (AEscrow transfer_port cr.1)) (recipients_of s IBC) <= list_sum (fun ir => claim_at s i (AEscrow transfer_port ir.1)) (recipients_of s IBC)).
    { apply list_sum_mono. intros a. by apply Hya. }
    destruct (v_ended (st_vaults s)); lia. }
  assert (Hls : 0 <= list_sum (fun cr : string * string => yield_of s1 (AEscrow transfer_port cr.1)) (recipients_of s IBC)).
  { clear. induction (recipients_of s IBC) as [|ir l IH]; unfold list_sum in *; cbn; [lia|]. pose proof (yield_of_nonneg s1 (AEscrow transfer_port ir.1)). lia. }
  pose proof (yield_of_nonneg s1 WarpA).
  apply runs_bind, runs_gets. apply runs_bind.
  eapply runs_mono; [apply (season_run T c i s1 C1)|]; auto.
  { intros a. rewrite Hp1. apply U2. }
  { by rewrite F1. }
  { unfold good_collector. rewrite F11. apply Hw. }
  { rewrite F11. auto. }
  { lia. }
  cbn beta. intros s2 [] (C2 & Y2 & O2 & I2 & E2). pose proof E2 as E2'. apply eside_parts in E2' as (X1 & X2 & X3 & _ & _ & X6 & X7 & _).
  rewrite F6 in X1. rewrite F7 in X2. rewrite F9 in X3. rewrite F12 in X6, X7.
  assert (Hn2 : enonneg s2) by (unfold enonneg, retry; rewrite X2, X6; exact Hn).
  assert (Hr2 : forall k, retry s2 k = retry s k) by (intros; unfold retry; by rewrite X2).
  assert (He2 : forall k, ext_yield s2 k = ext_yield s k) by (intros; unfold ext_yield; by rewrite X1).
  assert (Hy2 : forall a, outside a -> yield_of s2 a = yield_of s1 a) by (intros a Ha; apply yield_same; [apply O2|apply O2|]; done).
  assert (Hrec : forall p, recipients_of s2 p = recipients_of s p) by (intros; unfold recipients_of; by rewrite X3).
  apply runs_bind. unfold claim_external_ibc. apply runs_bind, runs_gets. rewrite Hrec.
  assert (R3 := ibc_loop_run T c x (yield_of s1 WarpA) (recipients_of s IBC) B4 ltac:(done) (nodup_recipients _ _) s2 C2).
  assert (R3' := R3 ltac:(intros ch _; rewrite Hr2, He2; split; [split; [apply Hn|apply U4]|apply U5])). clear R3.
  assert (Hle : list_sum (fun cr : string * string => yield_of s2 (AEscrow transfer_port cr.1)) (recipients_of s IBC) + yield_of s1 WarpA <= bal s2 YieldA).
  { rewrite Y2. assert (list_sum (fun cr : string * string => yield_of s2 (AEscrow transfer_port cr.1)) (recipients_of s IBC) = list_sum (fun cr => yield_of s1 (AEscrow transfer_port cr.1)) (recipients_of s IBC)).
    { clear - Hy2. induction (recipients_of s IBC) as [|ir l IH]; [done|]. unfold list_sum in *. cbn. rewrite IH, Hy2; [done|]. right. eauto. }
    lia. }
  eapply runs_mono; [apply (runs_wp _ _ _ _ _ (ibc_hsame c x (recipients_of s IBC) s2 Hn2 (ok_codec _ Hc)) (R3' Hle))|].
  cbn beta. intros s3 [] ((S3 & N3 & I3) & C3 & Y3). destruct S3.
  apply (hyp_ext_run T); auto.
  - rewrite (yield_same s2 s3) by done. rewrite Hy2; [done|by left].
  - intros id rc. rewrite hs_rec, hs_tok, hs_rout, X3, X6, X7. apply Hu.
  - intros id. rewrite hs_retry, hs_ext, Hr2, He2. split; [apply U4|apply U5].
  - assert (sum_routes s3 (collateral_of c s3) = sum_routes s (collateral_of c s)) as ->; [|done].
    unfold sum_routes, collateral_of. by rewrite hs_rec, hs_tok, X3, X6.
Qed.

Theorem index_accepted c s x bz index : chain_ok c -> reachable c s -> p_paused (st_portal s) = false ->
  index_message c s bz index -> claims_unblocked c -> routes_usable c s -> update_in_range c s ->
  (v_ended (st_vaults s) = true -> bystander (v_collector (st_vaults s))) ->
  supply s <= floor_div (total_principal s * index) unit_index ->
  index_claims s index <= bal s YieldA + (floor_div (total_principal s * index) unit_index - supply s) ->
  exists s', exec c (OpDeliver x bz) s = Ok s' tt /\ current_index s' = index.
Proof.
  intros Hc Hr Hpa (v & pr & id & sender & extra & Hv & Hd & Hok & Hpr & Hem & HW & W3 & W4 & HX & HI) Hub Hu Hrange Hcol Hsup Hcl.
  remember (c_chain c) as chain eqn:HC.
  pose proof (reach_w _ _ Hc Hr) as Hw. pose proof (wf_index _ _ Hw) as Hidx.
  destruct (proj1 (portal_well_formed _ _ Hc Hr) _ _ Hpr) as (_ & _ & _ & W1 & _).
  assert (W2 : blen (padded_manager c) = 32).
  { unfold padded_manager, blen. rewrite app_length, replicate_length. pose proof (ok_manager _ Hc). unfold blen in *. lia. }
  unfold index_wire in HW. rewrite index_encoded in HW. unfold wide in W3, W4.
  assert (HP : blen (encode_index_payload index chain) <= 65000).
  { unfold encode_index_payload, blen. rewrite !app_length, !be_encode_length. done. }
  destruct (wire_parsed _ _ _ _ _ _ _ Hok HW W1 W2 W3 W4 HP HX) as (t & m & P1 & P2 & P3 & P4 & P5 & P6 & P7 & P8 & P9).
  assert (HC' : 0 <= chain < 2 ^ 16) by (rewrite HC; apply (ok_chain _ Hc)).
  destruct (index_roundtrip _ _ _ P9 P8 ltac:(lia) HC') as (Q1 & Q2).
  set (s1 := s <| st_world; x_vaas ::= union {[va_digest v]} |>).
  assert (R : runs (update_index c x index) s1 (fun _ _ => True)).
  { destruct (solid_reachable _ _ Hc Hr) as [S1 S2]. destruct (einv_reachable _ _ Hc Hr) as (_ & _ & Hn).
    apply update_run; auto; try done.
    - destruct Hw. constructor; auto.
    - intros He. destruct (Hcol He) as (_ & C1 & C2). change (v_collector (st_vaults s1)) with (v_collector (st_vaults s)). intros [?|[ch ?]]; [done|by apply (C2 ch)].
    - destruct Hrange. constructor; auto. }
  assert (E : exists s', exec c (OpDeliver x bz) s = Ok s' tt).
  { apply runs_ok in R as (s' & [] & R & _). exists s'. cbn [exec]. unfold deliver, parse_and_verify_vaa. cbv [bind gets modify ret fail]. rewrite Hpa, Hv.
    rewrite bool_decide_false by done. fold s1. change (p_peers (st_portal s1)) with (p_peers (st_portal s)). rewrite Hpr.
    rewrite bool_decide_true by done. cbn [negb]. cbv [lift]. rewrite P1, P2, P3. rewrite !bool_decide_true by done. cbn [negb].
    rewrite P5. cbv [handle_payload bind lift]. rewrite Q1, Q2, <- HC, Z.eqb_refl. cbn [negb]. exact R. }
  destruct E as [s' E]. exists s'. split; [done|]. 
  destruct (deliver_inv' _ _ _ _ _ Hc Hw E) as (v' & pl' & [A1 A2 A3 (pr' & t' & m' & B1 & B2 & B3 & B4 & B5 & B6 & ->)] & Hh).
  assert (v' = v) as -> by congruence. assert (t' = t) as -> by congruence. assert (m' = m) as -> by congruence.
  inversion Hh as [G1|i s2 G1 G2 [G3 (n & _ & _ & G4)]|k' s2 G1]; [congruence| |congruence]. assert (i = index) as -> by congruence.
  apply upd_frame' in G4 as (_ & -> & _); [apply frame_accrued|]. unfold good_collector. rewrite (proj1 (proj2 (proj2 (proj2 (proj2 (proj2 (proj2 (proj2 (proj2 (proj2 (proj2 (frame_accrued _ _ _ _)))))))))))). apply Hw.
Qed.
