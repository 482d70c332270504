(** User accounts, settings, claims. *)
From Verif Require Export CoreP.

(** * Settings *)
Lemma portal_eta (p : portal) : p = mk_portal (p_owner p) (p_paused p) (p_peers p) (p_paths p) (p_nonce p).
Proof. by destruct p. Qed.
Record settings_same (o : op) (s s' : state) : Prop := {
  ss_dollar : drest (st_dollar s') = drest (st_dollar s);
  ss_vpaused : v_paused (st_vaults s') = v_paused (st_vaults s);
  ss_portal : st_portal s' = st_portal s <| p_nonce := nonce_step o s |>
}.
Lemma settings_op c o s s' : chain_ok c -> winv c s -> exec c o s = Ok s' tt -> administrative o = false ->
  settings_same o s s'.
Proof.
  intros Hc [Hw Hp] H Ha. destruct (plain_op o) eqn:Hpo.
  { destruct (plain_frame c o s s' Hpo Hc Hw H) as [Hv Hd _ Hpt _ _ _ _]. constructor; auto. by rewrite Hv. }
  destruct o; try discriminate.
  - destruct (lock_inv' _ _ _ _ _ _ Hc H) as (b & amt & _ & _ & _ & _ & _ & _ & _ & _ & ->).
    unfold lock_result, lock_state, add_flex. constructor; cbn [nonce_step]; rewrite ?portal_nonce_id; destruct (vault =? FLEXIBLE); done.
  - destruct (unlock_inv' _ _ _ _ _ _ Hp H) as (b & amt & d & s1 & _ & _ & _ & _ & _ & _ & _ & _ & Hu & ->).
    apply unls_frame in Hu as (_ & Hvp & _ & _ & _ & _ & Hpt & _ & Hd).
    constructor; cbn [nonce_step]; rewrite ?portal_nonce_id; auto.
    change (st_dollar (unlock_result s1 (AUser b) vault d)) with (st_dollar s1). unfold dside in Hd. unfold drest. congruence.
  - apply deliver_quiet in H as [Hpt Hv Hd _ _]; auto.
    constructor; cbn [nonce_step]; rewrite ?portal_nonce_id; auto. unfold vrest in Hv. congruence.
Qed.

(** * User accounts *)
(** The account a label debits. *)
Definition debits (l : label) : option addr :=
  match l with LSend f _ _ | LBurn f _ => Some f | LPay _ _ => Some YieldA | LRelay _ _ => Some YieldA | _ => None end.
Lemma prin_issued s to amt a : to <> ModuleA -> 0 <= amt ->
  prin (issued s to amt) a = prin s a + if decide (to = YieldA) then 0 else ind (a = to) (down amt (current_index s)).
Proof.
  intros H1 H2. unfold issued. destruct (Z.ltb_spec 0 amt).
  - rewrite !prin_mget. unfold send_result, send_prin. cbn -[mget addz down].
    change (current_index (mint_result s amt)) with (current_index s).
    repeat (case_decide; try done); cbn -[mget addz down]; try lia;
      rewrite mget_addz; unfold ind; case_decide; try done; lia.
  - assert (amt = 0) as -> by lia. unfold ind. assert (down 0 (current_index s) = 0) as -> by (unfold down; by destruct (current_index s)). repeat case_decide; lia.
Qed.
Lemma prin_burned s from amt a : ordinary from -> 0 <= amt -> 0 < current_index s ->
  prin (burned s from amt) a = prin s a - ind (a = from) (up amt (current_index s)).
Proof.
  intros [H1 H2] H3 Hi. unfold burned. destruct (Z.ltb_spec 0 amt).
  - rewrite !prin_mget. unfold burn_result, send_result, send_prin. cbn -[mget addz up].
    rewrite !(decide_False (P := from = YieldA)), !(decide_False (P := ModuleA = YieldA)), !(decide_False (P := from = ModuleA)),
      !(decide_True (P := ModuleA = ModuleA)) by done.
    rewrite mget_addz. unfold ind. case_decide; lia.
  - assert (amt = 0) as -> by lia. unfold up, ind. rewrite Z.mul_0_l. rewrite Z.quot_small by lia. case_decide; lia.
Qed.
Lemma prin_pay s a y b : prin (send_result s YieldA a y) b = prin s b.
Proof. by rewrite send_from_yield. Qed.
Lemma prin_shift s yp a : prin (shiftp s yp) a = prin s a - ind (a = StakedA) yp + ind (a = FlexibleA) yp.
Proof.
  rewrite !prin_mget. change (d_principal (st_dollar (shiftp s yp))) with (addz FlexibleA yp (addz StakedA (- yp) (d_principal (st_dollar s)))).
  rewrite !mget_addz. unfold ind. repeat case_decide; lia.
Qed.
Lemma prin_accrued s i n d a : prin (accrued s i n d) a = prin s a.
Proof. destruct (frame_accrued s i n d) as (_ & H & _). unfold prin. by rewrite H. Qed.

Lemma user_label l s b : cpre l s -> 0 < current_index s -> debits l <> Some (AUser b) ->
  bal s (AUser b) <= bal (capply l s) (AUser b) /\ prin s (AUser b) <= prin (capply l s) (AUser b).
Proof.
  intros H Hi Hd. destruct l; cbn [cpre capply debits] in *.
  - assert (f <> AUser b) by congruence. rewrite bal_send, prin_send by apply H.
    unfold ind. rewrite !(decide_False (P := AUser b = f)) by congruence.
    pose proof (up_nonneg amt (current_index s) ltac:(lia) Hi). case_decide; lia.
  - rewrite bal_send, prin_pay. unfold ind. rewrite (decide_False (P := AUser b = YieldA)) by done. case_decide; lia.
  - change (bal (shiftp ?a ?b) ?x) with (bal a x). rewrite bal_send, prin_shift, prin_pay. unfold ind.
    rewrite !decide_False by done. lia.
  - rewrite !bal_send. rewrite prin_send by (try done; apply H). rewrite prin_pay. unfold ind.
    rewrite !(decide_False (P := AUser b = YieldA)) by done. rewrite !(decide_False (P := AUser b = StakedA)) by done.
    rewrite index_send. pose proof (up_nonneg y (current_index s) ltac:(lia) Hi).
    repeat case_decide; lia.
  - rewrite bal_accrued by lia. rewrite prin_accrued. unfold ind. rewrite decide_False by done. lia.
  - rewrite bal_issued by (try lia; apply H). rewrite prin_issued by (try lia; apply H).
    pose proof (down_nonneg amt (current_index s) ltac:(lia) Hi). unfold ind. repeat case_decide; lia.
  - assert (from <> AUser b) by congruence. rewrite bal_burned by (try lia; apply H). rewrite prin_burned by (try lia; apply H).
    unfold ind. rewrite !decide_False by congruence. lia.
  - split; apply Z.le_refl.
Qed.
Lemma user_trace (A : label -> Prop) b ls s s' : ctrace ls s s' -> Forall A ls -> 0 < current_index s ->
  (forall l, A l -> debits l <> Some (AUser b)) ->
  bal s (AUser b) <= bal s' (AUser b) /\ prin s (AUser b) <= prin s' (AUser b).
Proof.
  intros T F Hi HA.
  cut (0 < current_index s -> 0 < current_index s' /\ (bal s (AUser b) <= bal s' (AUser b) /\ prin s (AUser b) <= prin s' (AUser b))); [naive_solver|].
  clear Hi. apply (ctrace_rel (fun s s' => 0 < current_index s -> 0 < current_index s' /\
     (bal s (AUser b) <= bal s' (AUser b) /\ prin s (AUser b) <= prin s' (AUser b))) A) with (ls := ls); auto.
  - intros s1 s2 Hs. rewrite (core_index _ _ Hs), (core_bal _ _ _ Hs), (core_prin _ _ _ Hs). lia.
  - intros s1 s2 s3 H1 H2 H0. destruct (H1 H0) as (? & ? & ?). destruct (H2 H) as (? & ? & ?). lia.
  - intros l s1 Hl Hp H0. split; [pose proof (index_mono_label l s1 Hp); lia|]. apply user_label; auto.
Qed.
Lemma position_account_user signer v t b : position_account signer v t <> AUser b.
Proof. unfold position_account. destruct (v =? STAKED); done. Qed.
Lemma allowed_debit c o l b : allowed c o l -> debits l = Some (AUser b) -> signer_of c o = Some (AUser b).
Proof.
  intros Ha Hd. destruct o; cbn in Ha; try done.
  - destruct Ha as (b' & y & _ & ->). discriminate.
  - destruct Ha as (b' & t & z & Hs & _ & ->). cbn in *. congruence.
  - destruct Ha as (b' & Hs & [[_ [z ->]]|[_ (t & z & [->|[->| ->]])]]); cbn [debits] in Hd; try discriminate.
  - destruct l; cbn in *; try done. destruct Ha as [-> [->|[? ->]]]; discriminate.
  - destruct Ha as (b' & z & Hs & _ & ->). cbn in *. congruence.
  - destruct Ha as [-> _]. done.
  - destruct Ha as [_ [(t & a & _ & ->)|[n ->]]]; [done|discriminate].
  - destruct Ha as [-> _]. done.
  - destruct Ha as (a0 & _ & ->). discriminate.
  - destruct Ha as (ch & a0 & z & ->). discriminate.
  - destruct Ha as (ch & a0 & z & ->). discriminate.
  - destruct Ha as [-> _]. done.
  - subst. discriminate.
Qed.
Theorem user_funds c o s s' b : chain_ok c -> winv c s -> exec c o s = Ok s' tt ->
  signer_of c o <> Some (AUser b) ->
  bal s (AUser b) <= bal s' (AUser b) /\ prin s (AUser b) <= prin s' (AUser b).
Proof.
  intros Hc Hw H Hs. destruct (op_trace c o s s' Hc Hw H) as (ls & T & F).
  apply (user_trace _ b _ _ _ T F); [apply (wf_index c s (wi_wfs c s Hw))|].
  intros l Hl Hd. apply Hs. by eapply allowed_debit.
Qed.

(** * Claims *)
Lemma get_yield_of_ok a s s' y : get_yield_of a s = Ok s' y -> 0 <= bal s a ->
  s' = s /\ int_fits (prin s a * current_index s) = true /\
  y = (let z := present (prin s a) (current_index s) - bal s a in if 1 <? z then z else 0).
Proof.
  unfold get_yield_of, get_principal, get_index, gets, bind, lift.
  destruct (present_amount (prin s a) (current_index s)) as [p| |] eqn:E; try discriminate.
  assert (Hf : int_fits (prin s a * current_index s) = true).
  { unfold present_amount, pbind, int_mul, int_chk in E. by destruct (int_fits (prin s a * current_index s)). }
  apply present_amount_ok in E as ->. set (p := present (prin s a) (current_index s)).
  assert (Hp : Z.abs p < 2 ^ 256).
  { unfold int_fits in Hf. apply Z.ltb_lt in Hf. subst p. unfold present.
    set (z := prin s a * current_index s) in *. unfold e12. clearbody z. lia. }
  clearbody p. unfold ret. intros [= -> <-] Hb. split; [done|]. split; [done|]. cbv zeta.
  unfold int_safe_sub. destruct (int_fits (p - bal s' a)) eqn:Ef.
  - destruct (Z.eqb_spec (p - bal s' a) 1), (Z.ltb_spec (p - bal s' a) 0), (Z.ltb_spec 1 (p - bal s' a)); cbn; lia.
  - unfold int_fits in Ef. apply Z.ltb_ge in Ef. destruct (Z.ltb_spec 1 (p - bal s' a)); lia.
Qed.
Lemma get_yield_of_run a s : 0 <= bal s a -> int_fits (prin s a * current_index s) = true ->
  get_yield_of a s = Ok s (let z := present (prin s a) (current_index s) - bal s a in if 1 <? z then z else 0).
Proof.
  intros Hb Hf. destruct (get_yield_of a s) as [s' y| |] eqn:E.
  - apply get_yield_of_ok in E as (-> & _ & ->); auto.
  - exfalso. revert E. unfold get_yield_of, get_principal, get_index, gets, bind, lift.
    destruct (present_amount _ _) eqn:E; try discriminate. by apply present_amount_err in E.
  - exfalso. revert E. unfold get_yield_of, get_principal, get_index, gets, bind, lift.
    destruct (present_amount _ _) eqn:E; try discriminate.
    unfold present_amount, pbind, int_mul, int_chk in E. rewrite Hf in E. discriminate.
Qed.
Lemma claim_exact c signer s s' b : c_dec c signer = Some (AUser b) -> (forall a, 0 <= bal s a) ->
  exec c (OpClaimYield signer) s = Ok s' tt ->
  exists y, y = (let z := present (prin s (AUser b)) (current_index s) - bal s (AUser b) in if 1 <? z then z else 0) /\
    int_fits (prin s (AUser b) * current_index s) = true /\
    d_paused (st_dollar s) = false /\ c_blocked c (AUser b) = false /\ (y <= bal s YieldA \/ y = 0) /\ s' = pay s (AUser b) y.
Proof.
  intros Hd Hn H. destruct (claim_inv' _ _ _ _ H) as (b' & y & Hd' & Hp & Hbl & Hy & Hyb & ->).
  assert (b' = b) as -> by congruence.
  cbn in H. unfold signed in H. rewrite Hd in H. unfold claim_yield in H.
  unfold gets, bind in H. rewrite Hp in H. unfold get_yield in H. rewrite Hd in H. unfold bind in H.
  destruct (get_yield_of (AUser b) s) as [s1 y1| |] eqn:E; try discriminate.
  apply get_yield_of_ok in E as (-> & Hf & Hy1); [|apply Hn].
  exists y. split; [|auto 10]. rewrite Hy. unfold yield_of.
  set (z := present (prin s (AUser b)) (current_index s) - bal s (AUser b)). cbv zeta.
  assert (Hz : 1 < z -> int_fits z = true).
  { unfold int_fits in *. apply Z.ltb_lt in Hf. intros. apply Z.ltb_lt. subst z. unfold present in *.
    pose proof (Hn (AUser b)). set (w := prin s (AUser b) * current_index s) in *. unfold e12 in *. clearbody w.
    generalize dependent (bal s (AUser b)). intros. lia. }
  clearbody z. destruct (Z.ltb_spec 1 z); [|by rewrite andb_false_r]. by rewrite Hz.
Qed.
Lemma send_zero f t s : send_coins f t 0 s = Ok s tt.
Proof. done. Qed.
Lemma bal_pay s a y b : 0 <= y -> bal (pay s a y) b = bal s b - ind (b = YieldA) y + ind (b = a) y.
Proof.
  intros Hy. unfold pay. destruct (Z.ltb_spec 0 y); [apply bal_send|].
  unfold ind. repeat case_decide; lia.
Qed.
Lemma claim_again c signer s s' b : c_dec c signer = Some (AUser b) -> (forall a, 0 <= bal s a) ->
  exec c (OpClaimYield signer) s = Ok s' tt -> exec c (OpClaimYield signer) s' = Ok s' tt.
Proof.
  intros Hd Hn H. destruct (claim_exact _ _ _ _ _ Hd Hn H) as (y & Hy & Hf & Hp & Hbl & Hyb & ->).
  assert (Hy0 : 0 <= y). { rewrite Hy. cbv zeta. destruct (Z.ltb_spec 1 (present (prin s (AUser b)) (current_index s) - bal s (AUser b))); lia. }
  assert (Hpr : prin (pay s (AUser b) y) (AUser b) = prin s (AUser b)).
  { unfold pay. destruct (0 <? y); [apply prin_pay|done]. }
  assert (Hix : current_index (pay s (AUser b) y) = current_index s).
  { unfold pay. by destruct (0 <? y). }
  assert (Hbal : bal (pay s (AUser b) y) (AUser b) = bal s (AUser b) + y).
  { rewrite bal_pay by done. unfold ind. rewrite decide_False by done. rewrite decide_True by done. lia. }
  assert (Hpa : d_paused (st_dollar (pay s (AUser b) y)) = false).
  { unfold pay. by destruct (0 <? y). }
  cbn. unfold signed. rewrite Hd. unfold claim_yield, gets, bind. rewrite Hpa. unfold get_yield. rewrite Hd. unfold bind.
  rewrite get_yield_of_run; [|rewrite Hbal; pose proof (Hn (AUser b)); lia|by rewrite Hpr, Hix].
  rewrite Hpr, Hix, Hbal. cbv zeta in Hy |- *.
  destruct (Z.ltb_spec 1 (present (prin s (AUser b)) (current_index s) - (bal s (AUser b) + y))) as [Hlt|].
  - exfalso. revert Hy Hlt. destruct (Z.ltb_spec 1 (present (prin s (AUser b)) (current_index s) - bal s (AUser b))); lia.
  - cbn. unfold send_to_account. by rewrite Hbl.
Qed.
Lemma claim_paused c signer s : d_paused (st_dollar s) = true -> forall s', exec c (OpClaimYield signer) s <> Ok s' tt.
Proof. intros Hp s' H. destruct (claim_inv' _ _ _ _ H) as (b & y & _ & Hq & _). congruence. Qed.

(** * Accrued yield statistic *)
Definition in_range (s : state) : Prop := ds_yield (d_stats (st_dollar s)) + supply s < 2 ^ 256.
Lemma accrual_step c o s s' : chain_ok c -> winv c s -> solid s -> 0 <= ds_yield (d_stats (st_dollar s)) ->
  exec c o s = Ok s' tt -> in_range s' ->
  ds_yield (d_stats (st_dollar s)) <= ds_yield (d_stats (st_dollar s')) /\
  supply s' - ds_yield (d_stats (st_dollar s')) = supply s - ds_yield (d_stats (st_dollar s)) + net_issued c s o.
Proof.
  intros Hc Hw Hso Hy0 H Hr.
  assert (Hd : match o with OpDeliver _ _ => True | _ => False end \/ match o with OpDeliver _ _ => False | _ => True end) by (destruct o; auto).
  destruct Hd as [Hd|Hd].
  - destruct o; try done. destruct (deliver_effect _ _ _ _ _ Hc (wi_wfs _ _ Hw) H) as (n & d & [E1 E2 E3 E4 E5 E6 E7] & _).
    unfold net_issued, issued_amount, redeemed_amount.
    assert (d = n) as ->.
    { destruct E5 as [?|[-> Hf]]; [done|]. exfalso. unfold int_fits in Hf. apply Z.ltb_ge in Hf.
      unfold in_range in Hr. rewrite E3, E4 in Hr. destruct Hso as [Hs1 Hs2].
      assert (0 <= supply s).
      { rewrite <- Hs1. rewrite msum_fsum. apply fsum_nonneg. intros k v Hk. specialize (Hs2 k). unfold bal in Hs2. by rewrite Hk in Hs2. }
      lia. }
    rewrite E3, E4. lia.
  - destruct (yield_stat_op c o s s' Hc Hw H Hd) as [-> _]. split; [lia|]. unfold net_issued.
    destruct (money_op o) eqn:Hm.
    + destruct o; try discriminate; try done. destruct (supply_transfer _ _ _ _ _ _ _ _ _ Hw H) as (x & -> & ->). cbn. lia.
    + rewrite (supply_op_same c o s s' Hc Hw H Hm). destruct o; try discriminate; cbn; lia.
Qed.
Lemma accrual_run c s l : chain_ok c -> winv c s -> solid s -> 0 <= ds_yield (d_stats (st_dollar s)) ->
  Forall in_range (history c s l) ->
  ds_yield (d_stats (st_dollar s)) <= ds_yield (d_stats (st_dollar (run c s l))) /\
  supply (run c s l) - ds_yield (d_stats (st_dollar (run c s l))) =
  supply s - ds_yield (d_stats (st_dollar s)) + count_ops (net_issued c) c s l.
Proof.
  intros Hc. revert s. induction l as [|o l IH]; intros s Hw Hso Hy HF.
  - cbn. lia.
  - cbn [history] in HF. apply Forall_cons in HF as [_ HF]. cbn [run fold_left count_ops].
    change (fold_left (step c) l (step c s o)) with (run c (step c s o) l).
    unfold succeeds. unfold step in *. destruct (exec c o s) as [s' []| |] eqn:E; try (specialize (IH s Hw Hso Hy HF); lia).
    assert (Hr : in_range s') by (destruct l; cbn [history] in HF; by apply Forall_cons in HF as [? _]).
    destruct (accrual_step c o s s' Hc Hw Hso Hy E Hr) as [H1 H2].
    specialize (IH s' (winv_step _ _ _ _ Hc Hw E) (solid_step _ _ _ _ Hc Hw E Hso) ltac:(lia) HF). lia.
Qed.

