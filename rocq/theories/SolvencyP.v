(** How far the claims on the yield account can exceed its balance. *)
From Verif Require Export LiveP.

(** * Sums over lists of accounts *)
Section listsum.
Context {A : Type} `{EqDecision A}.
Lemma list_sum_ext (f g : A -> Z) l : (forall a, a ∈ l -> f a = g a) -> list_sum f l = list_sum g l.
Proof.
  induction l as [|a l IH]; intros H; [done|]. unfold list_sum in *. cbn. rewrite IH, H; [done|left|]. intros b Hb. apply H. by right.
Qed.
Lemma list_sum_le (f g : A -> Z) l : (forall a, a ∈ l -> f a <= g a) -> list_sum f l <= list_sum g l.
Proof.
  induction l as [|a l IH]; intros H; [done|]. unfold list_sum in *. cbn.
  assert (f a <= g a) by (apply H; left). assert (foldr (fun a acc => f a + acc) 0 l <= foldr (fun a acc => g a + acc) 0 l); [|lia].
  apply IH. intros b Hb. apply H. by right.
Qed.
Lemma list_sum_plus (f g : A -> Z) l : list_sum (fun a => f a + g a) l = list_sum f l + list_sum g l.
Proof. unfold list_sum. induction l as [|a l IH]; [done|]. cbn. rewrite IH. lia. Qed.
Lemma list_sum_times (f : A -> Z) k l : list_sum (fun a => f a * k) l = list_sum f l * k.
Proof. unfold list_sum. induction l as [|a l IH]; [done|]. cbn. rewrite IH. lia. Qed.
Lemma list_sum_pos (f : A -> Z) l : (forall a, a ∈ l -> 0 <= f a) -> 0 <= list_sum f l.
Proof.
  intros H. etrans; [|apply (list_sum_le (fun _ => 0) f l H)]. unfold list_sum. clear. induction l; cbn; lia.
Qed.
Lemma list_sum_delta (k : A) (f : A -> Z) d l : NoDup l -> k ∈ l ->
  list_sum (fun a => f a + if decide (a = k) then d else 0) l = list_sum f l + d.
Proof.
  intros Hn Hk. rewrite list_sum_plus. f_equal. induction Hn as [|a l Ha Hn IH]; [by apply elem_of_nil in Hk|].
  change (list_sum (fun a => if decide (a = k) then d else 0) (a :: l)) with ((if decide (a = k) then d else 0) + list_sum (fun a => if decide (a = k) then d else 0) l).
  case_decide as E.
  - subst k. rewrite (list_sum_ext _ (fun _ => 0)).
    + assert (list_sum (fun _ : A => 0) l = 0); [|lia]. clear. unfold list_sum. induction l; cbn; lia.
    + intros b Hb. rewrite decide_False; [done|]. by intros ->.
  - apply elem_of_cons in Hk as [->|Hk]; [done|]. rewrite IH by done. lia.
Qed.
(** A sum over part of a list. *)
Lemma list_sum_part (f : A -> Z) l : forall l', NoDup l -> (forall a, a ∈ l -> a ∈ l') -> (forall a, a ∈ l' -> 0 <= f a) ->
  list_sum f l <= list_sum f l'.
Proof.
  induction l as [|a l IH]; intros l' Hn Hs Hp; [by apply list_sum_pos|]. apply NoDup_cons in Hn as [Ha Hn].
  assert (Hin : a ∈ l') by (apply Hs; left). apply elem_of_list_split in Hin as (l1 & l2 & ->).
  rewrite list_sum_app. change (list_sum f (a :: l)) with (f a + list_sum f l). change (list_sum f (a :: l2)) with (f a + list_sum f l2).
  assert (list_sum f l <= list_sum f (l1 ++ l2)); [|rewrite list_sum_app in H; lia].
  apply IH; [done| |].
  - intros b Hb. specialize (Hs b ltac:(by right)). apply elem_of_app in Hs as [?|Hs]; [apply elem_of_app; auto|].
    apply elem_of_cons in Hs as [->|?]; [done|]. apply elem_of_app; auto.
  - intros b Hb. apply Hp. apply elem_of_app in Hb as [?|?]; apply elem_of_app; [auto|right; by right].
Qed.
End listsum.
Lemma msum_over {K} `{Countable K} (m : gmap K Z) : forall l, NoDup l -> (forall k, is_Some (m !! k) -> k ∈ l) ->
  msum m = list_sum (mget m) l.
Proof.
  induction m as [|k v m Hk IH] using map_ind; intros l Hn Hs.
  - rewrite msum_empty. rewrite (list_sum_ext _ (fun _ => 0)); [|intros; unfold mget; by rewrite lookup_empty].
    clear. unfold list_sum. induction l; cbn; lia.
  - rewrite msum_insert. assert (mget m k = 0) as Hz by (unfold mget; by rewrite Hk).
    rewrite (list_sum_ext _ (fun a => mget m a + if decide (a = k) then v else 0)).
    + rewrite list_sum_delta; [|done|apply Hs; rewrite lookup_insert; eauto]. rewrite <- IH; [lia|done|].
      intros j Hj. apply Hs. destruct (decide (j = k)) as [->|]; [rewrite lookup_insert; eauto|by rewrite lookup_insert_ne].
    + intros a _. case_decide as E; [subst; rewrite mget_insert; lia|rewrite mget_insert_ne by done; lia].
Qed.

(** * The ledger of rounding *)
(** The principal the staked vault hands over with yield [y]. *)
Lemma yield_principal_bounds y i yp : 0 < y -> 0 < i -> yield_principal y i = POk yp ->
  y * e12 <= (yp + 1) * i /\ yp * i <= y * e12 + i /\ 0 <= yp.
Proof.
  intros Hy Hi. unfold yield_principal, dec_quo_int, dec_of_int. cbn [pbind].
  assert (E1 : Z.quot (i * e18) e12 = i * 1000000) by (unfold e18, e12; lia).
  change (e12 =? 0) with false. cbn beta iota. cbn [pbind]. rewrite E1. unfold dec_quo. rewrite (proj2 (Z.eqb_neq _ 0)) by lia.
  set (w := Z.quot (y * e18 * e18 * e18) (i * 1000000)).
  assert (Hw : w * (i * 1000000) <= y * e18 * e18 * e18 < (w + 1) * (i * 1000000) /\ 0 <= w).
  { subst w. rewrite Z.quot_div_nonneg by (unfold e18; lia).
    pose proof (Z.div_mod (y * e18 * e18 * e18) (i * 1000000) ltac:(lia)).
    pose proof (Z.mod_pos_bound (y * e18 * e18 * e18) (i * 1000000) ltac:(lia)).
    pose proof (Z.div_pos (y * e18 * e18 * e18) (i * 1000000) ltac:(unfold e18; lia) ltac:(lia)). lia. }
  clearbody w. destruct Hw as [[Hw1 Hw2] Hw0].
  assert (Hr : w / e18 <= dec_chop_round w <= w / e18 + 1).
  { unfold dec_chop_round. rewrite Z.abs_eq by lia. rewrite (proj2 (Z.ltb_ge w 0)) by lia. repeat case_match; lia. }
  set (r := dec_chop_round w) in *. clearbody r. destruct (dec_fits r); [|discriminate]. cbn [pbind]. unfold dec_truncate.
  intros H. apply int_chk_ok in H. subst yp.
  pose proof (Z.div_mod w e18 ltac:(unfold e18; lia)) as Hm1. pose proof (Z.mod_pos_bound w e18 ltac:(unfold e18; lia)) as Hm2.
  assert (0 <= w / e18) by (apply Z.div_pos; unfold e18; lia).
  set (q := w / e18) in *. set (m := w mod e18) in *. clearbody q m. 
  rewrite Z.quot_div_nonneg by (unfold e18; lia).
  pose proof (Z.div_mod r e18 ltac:(unfold e18; lia)) as Hn1. pose proof (Z.mod_pos_bound r e18 ltac:(unfold e18; lia)) as Hn2.
  assert (0 <= r / e18) by (apply Z.div_pos; unfold e18; lia).
  set (p := r / e18) in *. set (t := r mod e18) in *. clearbody p t.
  assert (K1 : (w + 1) * i <= (p + 1) * i * e18 * e18).
  { replace ((p + 1) * i * e18 * e18) with ((p + 1) * e18 * e18 * i) by lia. apply Z.mul_le_mono_nonneg_r; [lia|]. unfold e18 in *. lia. }
  assert (K2 : p * i * e18 * e18 <= w * i + i * e18).
  { replace (w * i + i * e18) with ((w + e18) * i) by lia. replace (p * i * e18 * e18) with (p * e18 * e18 * i) by lia.
    apply Z.mul_le_mono_nonneg_r; [lia|]. unfold e18 in *. lia. }
  split; [|split; [|done]].
  - unfold e18, e12 in *. lia.
  - unfold e18, e12 in *. lia.
Qed.

Definition sends (s : state) : Z := bk_sends (st_bank s).
(** [n a] units of principal make up for everything rounding took from [a]. *)
Record owe (n : gmap addr Z) (s : state) : Prop := {
  ow_nonneg : forall a, 0 <= mget n a;
  ow_sum : msum n <= 2 * sends s;
  ow_each : forall a, ordinary a -> bal s a * e12 <= (prin s a + mget n a) * current_index s
}.
Record ledger (s : state) : Prop := {
  lg_bal : forall a, 0 <= bal s a;
  lg_index : 0 < current_index s;
  lg_sends : 0 <= sends s;
  lg_special : prin s ModuleA = 0 /\ prin s YieldA = 0;
  lg_gap : 0 <= gap s;
  lg_high : total_principal s * current_index s <= (supply s + 1) * e12 + sends s * current_index s;
  lg_owe : exists n, owe n s
}.
Lemma sends_core s s' : same_core s s' -> sends s' = sends s.
Proof. intros (H & _). unfold sends. by rewrite H. Qed.
Lemma ledger_core s s' : same_core s s' -> ledger s -> ledger s'.
Proof.
  intros H [A B C D E F (n & [G1 G2 G3])]. constructor.
  - intros a. by rewrite (core_bal _ _ _ H).
  - by rewrite (core_index _ _ H).
  - by rewrite (sends_core _ _ H).
  - by rewrite !(core_prin _ _ _ H).
  - by rewrite (gap_core _ _ H).
  - by rewrite (core_tp _ _ H), (core_index _ _ H), (core_supply _ _ H), (sends_core _ _ H).
  - exists n. constructor; [done|by rewrite (sends_core _ _ H)|]. intros a Ha.
    rewrite (core_bal _ _ _ H), (core_prin _ _ _ H), (core_index _ _ H). auto.
Qed.

Lemma sends_label l s : cpre l s -> sends s <= sends (capply l s) /\
  match l with LAccrue _ _ _ => sends (capply l s) <= sends s + 1 | LRelay _ _ => sends (capply l s) = sends s + 2 | LTally _ => sends (capply l s) = sends s
  | _ => sends (capply l s) = sends s + 1 end.
Proof.
  unfold sends. destruct l; cbn [cpre capply]; intros H.
  - rewrite sends_send. lia.
  - rewrite sends_send. lia.
  - change (bk_sends (st_bank (shiftp ?a ?b))) with (bk_sends (st_bank a)). rewrite sends_send. lia.
  - rewrite !sends_send. lia.
  - unfold accrued. destruct (0 <? n); [|cbn; lia].
    change (bk_sends (st_bank (?x <| st_dollar; d_stats; ds_yield := ?y |>))) with (bk_sends (st_bank x)).
    rewrite sends_send. cbn. lia.
  - unfold issued. rewrite (proj2 (Z.ltb_lt 0 amt)) by lia. rewrite sends_send. cbn. lia.
  - unfold burned. rewrite (proj2 (Z.ltb_lt 0 amt)) by lia. change (bk_sends (st_bank (burn_result ?a ?b))) with (bk_sends (st_bank a)). rewrite sends_send. lia.
  - by cbn.
Qed.
Lemma yield_of_cash s a : 0 <= bal s a -> 0 < yield_of s a -> (bal s a + yield_of s a) * e12 <= prin s a * current_index s.
Proof.
  intros Hb. unfold yield_of. set (y := present (prin s a) (current_index s) - bal s a).
  destruct (int_fits y && (1 <? y)) eqn:E; [|lia]. apply andb_true_iff in E as [_ E]. apply Z.ltb_lt in E. intros _.
  assert (H : bal s a + y = present (prin s a) (current_index s)) by (unfold y; lia). rewrite H.
  assert (Hp : 0 < present (prin s a) (current_index s)) by lia. unfold present in *. unfold e12 in *. lia.
Qed.
Lemma prin_shift s yp a : prin (shiftp s yp) a = prin s a - ind (a = StakedA) yp + ind (a = FlexibleA) yp.
Proof.
  rewrite !prin_mget. change (d_principal (st_dollar (shiftp s yp))) with (addz FlexibleA yp (addz StakedA (- yp) (d_principal (st_dollar s)))).
  rewrite !mget_addz. unfold ind. repeat case_decide; lia.
Qed.
Lemma prin_yield s t amt a : prin (send_result s YieldA t amt) a = prin s a.
Proof. by rewrite send_from_yield. Qed.
Lemma prin_issued s to amt a : 0 < amt -> to <> ModuleA ->
  prin (issued s to amt) a = prin s a + ind (a = to /\ to <> YieldA) (down amt (current_index s)).
Proof.
  intros Ha Ht. unfold issued. rewrite (proj2 (Z.ltb_lt 0 amt)) by lia. rewrite !prin_mget. unfold send_result; cbn -[addz down]. unfold send_prin.
  change (current_index (mint_result s amt)) with (current_index s).
  repeat (case_decide; try done); rewrite ?mget_addz; unfold ind; repeat (case_decide; try naive_solver); lia.
Qed.
Lemma tp_issued s to amt : 0 < amt -> to <> ModuleA ->
  total_principal (issued s to amt) = total_principal s + (if decide (to = YieldA) then 0 else up amt (current_index s)).
Proof.
  intros Ha Ht. unfold issued. rewrite (proj2 (Z.ltb_lt 0 amt)) by lia. unfold total_principal at 1, send_result; cbn -[addz up]. unfold send_tp.
  change (current_index (mint_result s amt)) with (current_index s). change (total_principal (mint_result s amt)) with (total_principal s).
  repeat (case_decide; try done); lia.
Qed.
Lemma prin_burned s from amt a : 0 < amt -> ordinary from ->
  prin (burned s from amt) a = prin s a - ind (a = from) (up amt (current_index s)).
Proof.
  intros Ha [H1 H2]. unfold burned. rewrite (proj2 (Z.ltb_lt 0 amt)) by lia.
  change (prin (burn_result ?x ?y) a) with (prin x a). rewrite !prin_mget. unfold send_result; cbn -[addz up]. unfold send_prin.
  repeat (case_decide; try done); rewrite ?mget_addz; unfold ind; repeat (case_decide; try naive_solver); lia.
Qed.
Lemma tp_burned s from amt : 0 < amt -> ordinary from ->
  total_principal (burned s from amt) = total_principal s - up amt (current_index s).
Proof.
  intros Ha [H1 H2]. unfold burned. rewrite (proj2 (Z.ltb_lt 0 amt)) by lia.
  change (total_principal (burn_result ?x ?y)) with (total_principal x). unfold total_principal at 1, send_result; cbn -[addz up]. unfold send_tp.
  repeat (case_decide; try done); lia.
Qed.

(** One more unit for an account. *)
Lemma owe_more n k d s s' : owe n s -> 0 <= d -> msum n + d <= 2 * sends s' ->
  (forall a, ordinary a -> bal s' a * e12 <= (prin s' a + (mget n a + if decide (a = k) then d else 0)) * current_index s') ->
  owe (addz k d n) s'.
Proof.
  intros [A B C] Hd Hs H. constructor.
  - intros a. rewrite mget_addz. specialize (A a). case_decide; lia.
  - rewrite msum_addz. lia.
  - intros a Ha. rewrite mget_addz. auto.
Qed.

Lemma owe_send n s f t amt : (forall a, 0 <= bal s a) -> 0 < current_index s -> ordinary f -> ordinary t -> 0 < amt -> owe n s ->
  owe (addz f 1 n) (send_result s f t amt).
Proof.
  intros Hb Hi [F1 F2] [T1 T2] Ha Ho. pose proof (up_bounds amt (current_index s) ltac:(lia) Hi) as Hu.
  apply (owe_more n f 1 s); [done|lia| |].
  - unfold sends. rewrite sends_send. destruct Ho. unfold sends in *. lia.
  - intros a Hoa. rewrite bal_send, prin_send, index_send by done. destruct Ho as [_ _ Ho]. specialize (Ho a Hoa).
    set (u := up amt (current_index s)) in *. clearbody u. set (i := current_index s) in *. clearbody i. unfold ind. repeat case_decide; lia.
Qed.
Lemma owe_pay n s a y : owe n s -> (bal s a + y) * e12 <= prin s a * current_index s -> 0 < current_index s ->
  owe n (send_result s YieldA a y).
Proof.
  intros [A B C] H Hi. constructor; [done| |].
  - unfold sends. rewrite sends_send. unfold sends in B. lia.
  - intros b Hb. rewrite bal_send, prin_yield, index_send. specialize (C b Hb). specialize (A b). unfold ind. destruct Hb.
    repeat case_decide; subst; try done; try lia.
Qed.

Lemma ledger_label l s : cpre l s -> ledger s -> ledger (capply l s).
Proof.
  intros Hp Hl. pose proof (sends_label l s Hp) as [Hs1 Hs2].
  assert (Hbal : forall a, 0 <= bal (capply l s) a) by (intros a; apply bal_label_lower; [done|apply (lg_bal _ Hl)]).
  assert (Hidx : 0 < current_index (capply l s)) by (pose proof (index_mono_label l s Hp) as [? _]; pose proof (lg_index _ Hl); lia).
  assert (Hgap : 0 <= gap (capply l s)).
  { pose proof (lg_gap _ Hl). destruct l as [| | | | |to amt| |]; try (rewrite (gap_label _ s Hp I); done).
    cbn [cpre capply] in *. destruct Hp. pose proof (gap_issued s to amt ltac:(done) ltac:(lia) (lg_index _ Hl)). lia. }
  destruct Hl as [A B C [D1 D2] E F (n & G)].
  set (i := current_index s) in *.
  destruct l as [f t amt|a y|y yp|t y|i' m d|to amt|from amt|k]; cbn [cpre capply] in *.
  - destruct Hp as (Ha & Hf & Ht). pose proof Hf as [F1 F2]. pose proof Ht as [T1 T2]. refine (Build_ledger _ Hbal Hidx (Z.le_trans _ _ _ C Hs1) _ Hgap _ _).
    + rewrite !prin_send by done. unfold ind. repeat case_decide; subst; try done; lia.
    + rewrite tp_send by done. change (supply (send_result s f t amt)) with (supply s). change (current_index (send_result s f t amt)) with i. lia.
    + exists (addz f 1 n). apply owe_send; auto. lia.
  - destruct Hp as (Ha & Hy & Ho). refine (Build_ledger _ Hbal Hidx (Z.le_trans _ _ _ C Hs1) _ Hgap _ _).
    + by rewrite !prin_yield.
    + rewrite send_from_yield in *. unfold total_principal, current_index, supply in *. cbn -[sends] in *. fold i in F. lia.
    + exists n. apply owe_pay; auto. rewrite Hy. apply yield_of_cash; [auto|lia].
  - destruct Hp as (Ha & Hy & Hq). destruct (yield_principal_bounds y i yp ltac:(lia) B Hq) as (Y1 & Y2 & Y3). refine (Build_ledger _ Hbal Hidx (Z.le_trans _ _ _ C Hs1) _ Hgap _ _).
    + rewrite !prin_shift, !prin_yield. unfold ind. repeat case_decide; subst; try done; lia.
    + rewrite send_from_yield in *. unfold total_principal, current_index, supply in *. cbn -[sends addz] in *. fold i in F. lia.
    + exists (addz StakedA 1 (addz FlexibleA 1 n)).
      pose proof (yield_of_cash s StakedA (A _) ltac:(lia)) as Hcash. rewrite <- Hy in Hcash. fold i in Hcash.
      destruct G as [G1 G2 G3]. constructor.
      * intros a. rewrite !mget_addz. specialize (G1 a). repeat case_decide; lia.
      * rewrite !msum_addz. lia.
      * intros a Hoa. rewrite !mget_addz, prin_shift, prin_yield.
        change (bal (shiftp ?x yp) a) with (bal x a). change (current_index (shiftp _ _)) with i. rewrite bal_send.
        specialize (G3 a Hoa). specialize (G1 a). fold i in G3. destruct Hoa. assert (0 <= mget n a * i) by (apply Z.mul_nonneg_nonneg; lia).
        unfold ind. repeat case_decide; subst; try done; lia.
  - destruct Hp as (Ha & Hy & Ho). refine (Build_ledger _ Hbal Hidx (Z.le_trans _ _ _ C Hs1) _ Hgap _ _).
    + pose proof Ho as [T1 T2]. split; rewrite prin_send, prin_yield by done; unfold ind; repeat case_decide; subst; try done; lia.
    + destruct Ho. rewrite tp_send by done. change (supply (send_result _ _ _ _)) with (supply s). change (current_index (send_result _ _ _ _)) with i.
      rewrite send_from_yield in *. change (total_principal (mk_state _ (st_dollar s) _ _ _)) with (total_principal s). lia.
    + exists (addz StakedA 1 n). apply owe_send; [|exact Hidx|done|done|lia|].
      * intros b. pose proof (bal_label_lower (LPay StakedA y) s b) as L. apply L; [|done]. cbn. split; [done|]. by split.
      * apply owe_pay; auto. rewrite Hy. apply yield_of_cash; [auto|lia].
  - destruct Hp as (Hi & Hm & Hm0 & Hd). fold i in Hi. destruct (frame_accrued s i' m d) as (E1 & E2 & E3 & _).
    assert (Ep : forall a, prin (accrued s i' m d) a = prin s a) by (intros a; rewrite !prin_mget; by rewrite E2).
    refine (Build_ledger _ Hbal Hidx (Z.le_trans _ _ _ C Hs1) _ Hgap _ _).
    + by rewrite !Ep.
    + rewrite E1, E3, supply_accrued by done. replace (supply s + m) with (present (total_principal s) i') by lia.
      assert (0 <= sends (accrued s i' m d) * i') by (apply Z.mul_nonneg_nonneg; lia). unfold present. unfold e12. lia.
    + exists n. destruct G as [G1 G2 G3]. constructor; [done|lia|]. intros a Hoa. rewrite E1, Ep, bal_accrued by done.
      specialize (G3 a Hoa). fold i in G3. destruct Hoa. unfold ind. rewrite decide_False by done.
      assert (0 <= prin s a + mget n a).
      { specialize (A a). assert (0 <= (prin s a + mget n a) * i) by (unfold e12 in *; lia). destruct (Z.le_gt_cases 0 (prin s a + mget n a)) as [|L]; [done|].
        assert ((prin s a + mget n a) * i <= -1 * i) by (apply Z.mul_le_mono_nonneg_r; lia). lia. }
      assert ((prin s a + mget n a) * i <= (prin s a + mget n a) * i') by (apply Z.mul_le_mono_nonneg_l; lia). lia.
  - destruct Hp as (Ha & Ht). destruct (frame_issued s to amt) as (E1 & _). pose proof (up_bounds amt i ltac:(lia) B) as Hu.
    pose proof (down_bounds amt i ltac:(lia) B) as Hd. refine (Build_ledger _ Hbal Hidx (Z.le_trans _ _ _ C Hs1) _ Hgap _ _).
    + rewrite !prin_issued by done. unfold ind. repeat case_decide; naive_solver lia.
    + rewrite E1, tp_issued, supply_issued by (done || lia). fold i. case_decide; unfold e12 in *; lia.
    + exists (addz to 1 n). apply (owe_more n to 1 s); auto; [lia|destruct G; lia|].
      intros a Hoa. rewrite E1, prin_issued, bal_issued by (done || lia). fold i. destruct G as [_ _ G3]. specialize (G3 a Hoa). fold i in G3.
      destruct Hoa. unfold ind. repeat case_decide; naive_solver lia.
  - destruct Hp as (Ha & Hf). destruct (frame_burned s from amt) as (E1 & _). pose proof (up_bounds amt i ltac:(lia) B) as Hu. refine (Build_ledger _ Hbal Hidx (Z.le_trans _ _ _ C Hs1) _ Hgap _ _).
    + rewrite !prin_burned by (done || lia). destruct Hf. unfold ind. repeat case_decide; naive_solver lia.
    + rewrite E1, tp_burned, supply_burned by (done || lia). fold i. lia.
    + exists (addz from 1 n). apply (owe_more n from 1 s); auto; [lia|destruct G; lia|].
      intros a Hoa. pose proof Hf as [? ?]. rewrite E1, prin_burned, bal_burned by (done || lia). fold i. destruct G as [_ _ G3]. specialize (G3 a Hoa). fold i in G3.
      unfold ind. repeat case_decide; lia.
  - constructor; auto. exists n. destruct G as [G1 G2 G3]. by constructor.
Qed.

Lemma ledger_fresh c s : fresh c s -> ledger s.
Proof.
  intros H. destruct (fresh_index _ _ H) as [Hi _].
  assert (Hb : forall a, bal s a = 0) by (intros a; rewrite bal_mget, (fresh_bank _ _ H); done).
  assert (Hp : forall a, prin s a = 0) by (intros a; rewrite prin_mget, (fresh_principal _ _ H); done).
  constructor; auto.
  - intros a. rewrite Hb. lia.
  - unfold sends. rewrite (fresh_bank _ _ H). done.
  - rewrite (fresh_gap _ _ H). lia.
  - unfold total_principal, sends, supply. rewrite (fresh_stats _ _ H), (fresh_bank _ _ H). cbn. unfold e12. lia.
  - exists ∅. constructor.
    + intros a. done.
    + rewrite msum_empty. unfold sends. rewrite (fresh_bank _ _ H). done.
    + intros a _. rewrite Hb, Hp. change (mget ∅ a) with 0. lia.
Qed.
Lemma ledger_reachable c s : chain_ok c -> reachable c s -> ledger s.
Proof.
  intros Hc Hr. apply (reachable_inv ledger c s Hc Hr); [apply ledger_fresh|].
  intros s1 s2 o Hw Hl H. destruct (op_trace _ _ _ _ Hc Hw H) as (ls & T & _).
  revert T Hl. apply ctrace_ind_core; [apply ledger_core|apply ledger_label].
Qed.

(** The terms of the books in a common list of accounts. *)
Lemma ledger_sums s n : ledger s -> solid s -> owe n s -> exists l, NoDup l /\
  (forall a, is_Some (d_principal (st_dollar s) !! a) -> a ∈ l) /\ (forall a, is_Some (bk_bal (st_bank s) !! a) -> a ∈ l) /\
  (forall j, list_sum (fun a => (prin s a + mget n a) * j + - e12 * bal s a) l <= (total_principal s + 2 * sends s) * j - supply s * e12 \/ j < 0) /\
  list_sum (prin s) l = msum (d_principal (st_dollar s)) /\ list_sum (mget n) l = msum n /\ list_sum (bal s) l = supply s.
Proof.
  intros L [S1 S2] [O1 O2 O3].
  set (X := dom (d_principal (st_dollar s)) ∪ dom (bk_bal (st_bank s)) ∪ dom n : gset addr).
  exists (elements X). assert (HN : NoDup (elements X)) by apply NoDup_elements.
  assert (A1 : forall a, is_Some (d_principal (st_dollar s) !! a) -> a ∈ elements X) by (intros a Ha; apply elem_of_elements; unfold X; apply elem_of_dom in Ha; set_solver).
  assert (A2 : forall a, is_Some (bk_bal (st_bank s) !! a) -> a ∈ elements X) by (intros a Ha; apply elem_of_elements; unfold X; apply elem_of_dom in Ha; set_solver).
  assert (A3 : forall a, is_Some (n !! a) -> a ∈ elements X) by (intros a Ha; apply elem_of_elements; unfold X; apply elem_of_dom in Ha; set_solver).
  assert (E1 : list_sum (prin s) (elements X) = msum (d_principal (st_dollar s))) by (symmetry; apply (msum_over _ _ HN A1)).
  assert (E2 : list_sum (mget n) (elements X) = msum n) by (symmetry; apply (msum_over _ _ HN A3)).
  assert (E3 : list_sum (bal s) (elements X) = supply s) by (rewrite <- S1; symmetry; apply (msum_over _ _ HN A2)).
  repeat (split; [done|]). split; [|done].
  intros j. destruct (Z.lt_ge_cases j 0); [by right|left]. rewrite list_sum_plus, list_sum_times, list_sum_plus.
  rewrite (list_sum_ext (fun a => - e12 * bal s a) (fun a => bal s a * - e12)) by (intros; lia). rewrite list_sum_times, E1, E2, E3.
  pose proof (lg_gap _ L) as Hg. unfold gap in Hg.
  assert ((msum (d_principal (st_dollar s)) + msum n) * j <= (total_principal s + 2 * sends s) * j) by (apply Z.mul_le_mono_nonneg_r; lia). lia.
Qed.

(** What an account can claim at an index not below the current one. *)
Lemma claim_at_le s n j a : ledger s -> owe n s -> current_index s <= j -> ordinary a ->
  0 <= claim_at s j a /\ claim_at s j a * e12 <= (prin s a + mget n a) * j + - e12 * bal s a.
Proof.
  intros L [O1 O2 O3] Hj Ha. pose proof (lg_bal _ L a) as Hb. pose proof (lg_index _ L) as Hi. specialize (O1 a). specialize (O3 a Ha).
  assert (Hp : 0 <= prin s a + mget n a).
  { destruct (Z.le_gt_cases 0 (prin s a + mget n a)) as [|L1]; [done|].
    assert ((prin s a + mget n a) * current_index s <= -1 * current_index s) by (apply Z.mul_le_mono_nonneg_r; lia). unfold e12 in *. lia. }
  assert (Hm : (prin s a + mget n a) * current_index s <= (prin s a + mget n a) * j) by (apply Z.mul_le_mono_nonneg_l; lia).
  assert (Hn : 0 <= mget n a * j) by (apply Z.mul_nonneg_nonneg; lia).
  unfold claim_at, floor_div. change unit_index with e12. set (z := prin s a * j / e12 - bal s a). destruct (Z.leb_spec z 1); [split; [done|]; lia|].
  split; [lia|]. pose proof (Z.mul_div_le (prin s a * j) e12 ltac:(unfold e12; lia)). unfold z. lia.
Qed.
Lemma claim_at_now s a : claim_at s (current_index s) a = claimable s a.
Proof. done. Qed.
Lemma claim_special s j a : ledger s -> ~ ordinary a -> claim_at s j a = 0.
Proof.
  intros L Ha. destruct (lg_special _ L) as [P1 P2]. pose proof (lg_bal _ L a).
  assert (prin s a = 0) as E. { destruct (decide (a = ModuleA)) as [-> | ]; [done|]. destruct (decide (a = YieldA)) as [-> | ]; [done|]. by destruct Ha. }
  unfold claim_at. rewrite E. change (floor_div (0 * j) unit_index) with 0. destruct (Z.leb_spec (0 - bal s a) 1); lia.
Qed.
Lemma claim_at_none s j a : ledger s -> prin s a = 0 -> claim_at s j a = 0.
Proof.
  intros L E. pose proof (lg_bal _ L a). unfold claim_at. rewrite E. change (floor_div (0 * j) unit_index) with 0. destruct (Z.leb_spec (0 - bal s a) 1); lia.
Qed.
Lemma claim_at_nonneg s j a : 0 <= claim_at s j a.
Proof. unfold claim_at. destruct (Z.leb_spec (floor_div (prin s a * j) unit_index - bal s a) 1); lia. Qed.

(** Bounding a sum over all accounts by the books at index [j]. *)
Lemma books_bound s j (g : addr -> Z) : ledger s -> solid s -> bal s ModuleA = 0 -> current_index s <= j ->
  (forall n a, owe n s -> ordinary a -> g a <= (prin s a + mget n a) * j + - e12 * bal s a) -> (forall a, ~ ordinary a -> g a <= 0) ->
  exists X, NoDup X /\ (forall a, is_Some (d_principal (st_dollar s) !! a) -> a ∈ X) /\
    list_sum g X <= (total_principal s + 2 * sends s) * j - supply s * e12 + bal s YieldA * e12.
Proof.
  intros L S Hmod Hj Hg Hg0. destruct (lg_owe _ L) as [n O]. pose proof (lg_index _ L) as Hi.
  destruct (ledger_sums s n L S O) as (X & HN & A1 & A2 & Hsum & _). exists X. split; [done|]. split; [done|].
  set (f := fun a => (prin s a + mget n a) * j + - e12 * bal s a).
  destruct (Hsum j) as [Hs|]; [|lia]. fold f in Hs.
  assert (HY : forall X0, NoDup X0 -> list_sum (fun a => if decide (a = YieldA) then bal s YieldA * e12 else 0) X0 <= bal s YieldA * e12).
  { intros X0 H0. pose proof (lg_bal _ L YieldA) as Hb. destruct (decide (YieldA ∈ X0)) as [Hin|Hin].
    - rewrite (list_sum_ext _ (fun a => 0 + if decide (a = YieldA) then bal s YieldA * e12 else 0)) by (intros; lia).
      rewrite list_sum_delta by done.
      assert (list_sum (fun _ : addr => 0) X0 = 0); [|lia]. clear. unfold list_sum. induction X0; cbn; lia.
    - rewrite (list_sum_ext _ (fun _ => 0)).
      + assert (list_sum (fun _ : addr => 0) X0 = 0); [|unfold e12; lia]. clear. unfold list_sum. induction X0; cbn; lia.
      + intros a Ha. rewrite decide_False; [done|]. by intros ->. }
  specialize (HY X HN). assert (list_sum g X <= list_sum (fun a => f a + if decide (a = YieldA) then bal s YieldA * e12 else 0) X).
  - apply list_sum_le. intros a _. destruct (decide (ordinary a)) as [Ho|Ho].
    + pose proof (Hg n a O Ho). unfold f. destruct Ho. rewrite decide_False by done. lia.
    + specialize (Hg0 a Ho). assert (0 <= mget n a * j) by (destruct O as [O _ _]; specialize (O a); apply Z.mul_nonneg_nonneg; lia).
      destruct (lg_special _ L) as [P1 P2]. unfold f. destruct (decide (a = YieldA)) as [-> | ]; [rewrite P2; lia|].
      assert (a = ModuleA) as -> by (destruct (decide (a = ModuleA)); [done|by destruct Ho]). rewrite P1, Hmod. lia.
  - rewrite list_sum_plus in H. lia.
Qed.
Lemma claims_filter s j l X (P : addr -> Prop) `{forall a, Decision (P a)} : ledger s -> NoDup l -> (forall a, a ∈ l -> P a) ->
  (forall a, is_Some (d_principal (st_dollar s) !! a) -> a ∈ X) ->
  list_sum (claim_at s j) l <= list_sum (fun a => if decide (P a) then claim_at s j a else 0) X.
Proof.
  intros L Hl HP A1. transitivity (list_sum (claim_at s j) (filter (fun a => prin s a <> 0) l)).
  - clear - L. induction l as [|a l IH]; [done|]. rewrite filter_cons. destruct (decide (prin s a <> 0)) as [|E].
    + unfold list_sum in *. cbn. lia.
    + change (list_sum (claim_at s j) (a :: l)) with (claim_at s j a + list_sum (claim_at s j) l).
      rewrite claim_at_none; [lia|done|]. destruct (decide (prin s a = 0)); tauto.
  - rewrite (list_sum_ext (claim_at s j) (fun a => if decide (P a) then claim_at s j a else 0)).
    + apply list_sum_part; [by apply NoDup_filter| |].
      * intros a [Ha _]%elem_of_list_filter. apply A1. rewrite prin_mget in Ha. unfold mget in Ha.
        destruct (d_principal (st_dollar s) !! a); [eauto|done].
      * intros a _. pose proof (claim_at_nonneg s j a). case_decide; lia.
    + intros a [_ Ha]%elem_of_list_filter. rewrite decide_True by auto. done.
Qed.
(** All claims of the listed accounts at index [j]. *)
Lemma claims_bounded s j l : ledger s -> solid s -> bal s ModuleA = 0 -> current_index s <= j -> NoDup l ->
  list_sum (claim_at s j) l * e12 <= (total_principal s + 2 * sends s) * j - supply s * e12 + bal s YieldA * e12.
Proof.
  intros L S Hmod Hj Hl. destruct (books_bound s j (fun a => claim_at s j a * e12) L S Hmod Hj) as (X & HN & A1 & H).
  - intros n a O Ho. by apply claim_at_le.
  - intros a Ho. rewrite claim_special by done. done.
  - pose proof (claims_filter s j l X (fun _ => True) L Hl ltac:(done) A1) as H1. rewrite list_sum_times in H.
    rewrite (list_sum_ext (fun a => if decide True then claim_at s j a else 0) (claim_at s j)) in H1 by done. unfold e12 in *. lia.
Qed.
(** The same for accounts that are not users: what the users gain is left. *)
Definition is_user (a : addr) : bool := match a with AUser _ => true | _ => false end.
Lemma claims_users s j l : ledger s -> solid s -> bal s ModuleA = 0 -> current_index s <= j -> NoDup l -> (forall a, a ∈ l -> is_user a = false) ->
  list_sum (claim_at s j) l * e12 + user_principal s * (j - current_index s) <=
    (total_principal s + 2 * sends s) * j - supply s * e12 + bal s YieldA * e12.
Proof.
  intros L S Hmod Hj Hl Hu.
  destruct (books_bound s j (fun a => if is_user a then prin s a * (j - current_index s) else claim_at s j a * e12) L S Hmod Hj) as (X & HN & A1 & H).
  - intros n a O Ho. destruct (is_user a); [|by apply claim_at_le]. destruct O as [O1 _ O3]. specialize (O1 a). specialize (O3 a Ho).
    assert (0 <= mget n a * (j - current_index s)) by (apply Z.mul_nonneg_nonneg; lia). lia.
  - intros a Ho. destruct (is_user a) eqn:E; [destruct a; try done; exfalso; apply Ho; done|]. rewrite claim_special by done. done.
  - pose proof (claims_filter s j l X (fun a => is_user a = false) L Hl Hu A1) as H1.
    rewrite (list_sum_ext _ (fun a => (if decide (is_user a = false) then claim_at s j a else 0) * e12 + (if is_user a then prin s a else 0) * (j - current_index s))) in H.
    2:{ intros a _. destruct (is_user a); [rewrite decide_False by done|rewrite decide_True by done]; lia. }
    rewrite list_sum_plus, !list_sum_times in H.
    assert (E : user_principal s = list_sum (fun a => if is_user a then prin s a else 0) X).
    { unfold user_principal. change (map_fold _ 0 ?m) with (fsum (fun a (z : Z) => match a with AUser _ => z | _ => 0 end) m).
      set (m := d_principal (st_dollar s)) in *. change (prin s) with (mget m).
      assert (E1 : fsum (fun a (z : Z) => match a with AUser _ => z | _ => 0 end) m = msum (map_imap (fun a z => Some (if is_user a then z else 0)) m)).
      { clear. induction m as [|k v m Hk IH] using map_ind; [done|]. rewrite fsum_insert_fresh by done. rewrite IH.
        rewrite map_imap_insert_Some with (y := if is_user k then v else 0) by done. rewrite msum_insert. unfold mget. rewrite map_lookup_imap, Hk. cbn.
        destruct k; cbn; lia. }
      rewrite E1. rewrite (msum_over _ X HN).
      - apply list_sum_ext. intros a _. unfold mget. rewrite map_lookup_imap. destruct (m !! a); cbn; by destruct (is_user a).
      - intros k. rewrite map_lookup_imap. intros Hk. apply A1. destruct (m !! k); [eauto|]. by destruct Hk. }
    rewrite <- E in H. unfold e12 in *. lia.
Qed.

Lemma total_claimable_list s : total_claimable s = list_sum (claim_at s (current_index s)) (map_to_list (d_principal (st_dollar s))).*1.
Proof. unfold total_claimable. change (map_fold _ 0 ?m) with (fsum (fun a (_ : Z) => claimable s a) m). rewrite fsum_list, list_sum_fmap. done. Qed.

Theorem solvency_bound c s : chain_ok c -> reachable c s ->
  total_claimable s * unit_index <= (bal s YieldA + 1) * unit_index + 3 * transfer_count s * current_index s.
Proof.
  intros Hc Hr. pose proof (ledger_reachable _ _ Hc Hr) as L. pose proof (solid_reachable _ _ Hc Hr) as S.
  pose proof (wf_module _ _ (reach_w _ _ Hc Hr)) as Hm. change unit_index with e12. change (transfer_count s) with (sends s).
  rewrite total_claimable_list.
  pose proof (claims_bounded s (current_index s) (map_to_list (d_principal (st_dollar s))).*1 L S Hm ltac:(lia) (NoDup_fst_map_to_list _)) as H.
  pose proof (lg_high _ L). lia.
Qed.
Theorem claim_in_total c s a : chain_ok c -> reachable c s -> 0 <= claimable s a <= total_claimable s.
Proof.
  intros Hc Hr. pose proof (ledger_reachable _ _ Hc Hr) as L. rewrite total_claimable_list.
  split; [apply claim_at_nonneg|]. rewrite <- claim_at_now. destruct (decide (prin s a = 0)) as [E|E].
  - rewrite claim_at_none by done. apply list_sum_pos. intros; apply claim_at_nonneg.
  - assert (a ∈ (map_to_list (d_principal (st_dollar s))).*1).
    { rewrite prin_mget in E. unfold mget in E. destruct (d_principal (st_dollar s) !! a) as [z|] eqn:Ez; [|done].
      apply elem_of_list_fmap. exists (a, z). split; [done|]. by apply elem_of_map_to_list. }
    transitivity (list_sum (claim_at s (current_index s)) [a]); [unfold list_sum; cbn; lia|].
    apply list_sum_part; [apply NoDup_singleton|set_solver|intros; apply claim_at_nonneg].
Qed.

(** * Large index updates are applied *)
(** The supply is worth the total principal up to one unit per transfer, on chains
    where nothing can be issued to the yield account. *)
Definition low (s : state) : Prop := ledger s /\ solid s /\ supply s * e12 <= (total_principal s + sends s) * current_index s.
Lemma low_core s s' : same_core s s' -> low s -> low s'.
Proof.
  intros H (A & B & C). split; [by eapply ledger_core|]. split; [by eapply solid_core|].
  by rewrite (core_supply _ _ H), (core_tp _ _ H), (sends_core _ _ H), (core_index _ _ H).
Qed.
Lemma low_label l s : match l with LIssue to _ => to <> YieldA | _ => True end -> cpre l s -> low s -> low (capply l s).
Proof.
  intros Ht Hp (L & S & H). split; [by apply ledger_label|]. split; [by apply solid_label|].
  pose proof (sends_label l s Hp) as [Hs1 Hs2]. rewrite supply_label by done. pose proof (lg_index _ L) as Hi. pose proof (solid_supply _ S) as H0. set (i := current_index s) in *.
  destruct l as [f t amt|a y|y yp|t y|i' m d|to amt|from amt|k]; cbn [cpre capply] in *.
  - destruct Hp as (? & [? ?] & [? ?]). rewrite tp_send, Hs2 by done. change (current_index (send_result _ _ _ _)) with i. lia.
  - rewrite Hs2. rewrite send_from_yield. unfold total_principal, current_index in *. cbn. fold i. lia.
  - rewrite Hs2. rewrite send_from_yield. unfold total_principal, current_index in *. cbn -[addz]. fold i. lia.
  - destruct Hp as (? & ? & [? ?]). rewrite Hs2, tp_send by done. change (current_index (send_result _ _ _ _)) with i.
    rewrite send_from_yield. change (total_principal (mk_state _ (st_dollar s) _ _ _)) with (total_principal s). lia.
  - destruct Hp as (Hi' & Hm & Hm0 & Hd). fold i in Hi'. destruct (frame_accrued s i' m d) as (E1 & E2 & E3 & _). rewrite E1, E3.
    assert (K : 0 <= total_principal s + sends s).
    { destruct (Z.le_gt_cases 0 (total_principal s + sends s)) as [|L1]; [done|].
      assert ((total_principal s + sends s) * i <= -1 * i) by (apply Z.mul_le_mono_nonneg_r; lia). unfold e12 in *. lia. }
    assert (K2 : (total_principal s + sends s) * i' <= (total_principal s + sends (accrued s i' m d)) * i') by (apply Z.mul_le_mono_nonneg_r; lia).
    assert (K3 : 0 <= (total_principal s + sends s) * i') by (apply Z.mul_nonneg_nonneg; lia).
    assert (K4 : 0 <= sends s * i') by (apply Z.mul_nonneg_nonneg; [apply (lg_sends _ L)|lia]).
    replace (supply s + m) with (present (total_principal s) i') in * by lia.
    assert (0 <= present (total_principal s) i') by lia. unfold present in *. set (T := total_principal s * i') in *.
    assert (Z.quot T e12 * e12 <= Z.max 0 T) by (unfold e12 in *; lia). lia.
  - destruct Hp as (Ha & Hto). destruct (frame_issued s to amt) as (E1 & _). rewrite E1, tp_issued, Hs2 by (done || lia). rewrite decide_False by done. fold i.
    pose proof (up_bounds amt i ltac:(lia) Hi). lia.
  - destruct Hp as (Ha & Hf). destruct (frame_burned s from amt) as (E1 & _). rewrite E1, tp_burned, Hs2 by (done || lia). fold i.
    pose proof (up_bounds amt i ltac:(lia) Hi). lia.
  - change (total_principal (tallied s k)) with (total_principal s). rewrite Hs2. change (current_index (tallied s k)) with i. lia.
Qed.
Lemma low_fresh c s : fresh c s -> low s.
Proof.
  intros H. split; [by eapply ledger_fresh|]. split; [by eapply solid_fresh|].
  unfold supply, total_principal, sends. rewrite (fresh_bank _ _ H), (fresh_stats _ _ H). cbn. lia.
Qed.
Lemma low_reachable c s : chain_ok c -> c_blocked c YieldA = true -> reachable c s -> low s.
Proof.
  intros Hc Hy Hr. apply (reachable_inv low c s Hc Hr); [apply low_fresh|].
  intros s1 s2 o Hw Hl H. destruct (op_trace _ _ _ _ Hc Hw H) as (ls & T & F).
  assert (F' : Forall (fun l => match l with LIssue to _ => to <> YieldA | _ => True end) ls).
  { eapply Forall_impl; [exact F|]. intros [] HA; try done. intros ->. destruct o; cbn in HA; try done; try congruence;
    repeat match goal with H : exists _, _ |- _ => destruct H | H : _ /\ _ |- _ => destruct H | H : _ \/ _ |- _ => destruct H end; congruence. }
  clear F Hw H Hr. revert F' Hl. induction T as [s1 s2 Hs|l ls s1 s3 s2 Hp Hs T IH]; intros F Hl; [by eapply low_core|].
  apply Forall_cons in F as [F1 F2]. apply IH; [done|].
  eapply low_core; [exact Hs|]. by apply low_label.
Qed.
Lemma index_claims_le s j : ledger s -> exists l, NoDup l /\ (forall a, a ∈ l -> is_user a = false) /\ index_claims s j <= list_sum (claim_at s j) l.
Proof.
  intros L. exists (FlexibleA :: StakedA :: WarpA :: (AEscrow transfer_port <$> (recipients_of s IBC).*1)).
  assert (Hesc : forall a, a ∈ AEscrow transfer_port <$> (recipients_of s IBC).*1 -> exists ch, a = AEscrow transfer_port ch).
  { intros a (ch & -> & _)%elem_of_list_fmap. eauto. }
  split; [|split].
  - repeat (apply NoDup_cons; split; [rewrite ?elem_of_cons; intros H; repeat (destruct H as [H|H]; [done|]); apply Hesc in H as [? ?]; done|]).
    apply NoDup_fmap_2; [intros ? ? [=]; done|apply nodup_recipients].
  - intros a. rewrite !elem_of_cons. intros [->|[->|[->|[? ->]%Hesc]]]; done.
  - unfold index_claims. rewrite sum_channels_list.
    assert (E : list_sum (fun ir : string * string => claim_at s j (AEscrow transfer_port ir.1)) (recipients_of s IBC) =
      list_sum (claim_at s j) (AEscrow transfer_port <$> (recipients_of s IBC).*1)) by (by rewrite !list_sum_fmap).
    rewrite E. change (list_sum (claim_at s j) (FlexibleA :: StakedA :: WarpA :: ?l)) with
      (claim_at s j FlexibleA + (claim_at s j StakedA + (claim_at s j WarpA + list_sum (claim_at s j) l))).
    pose proof (claim_at_nonneg s j FlexibleA). destruct (v_ended (st_vaults s)); lia.
Qed.
Lemma user_principal_le s : ledger s -> solid s -> bal s ModuleA = 0 -> user_principal s <= total_principal s + 2 * sends s.
Proof.
  intros L S Hm. pose proof (lg_index _ L) as Hi. pose proof (claims_users s (current_index s) [] L S Hm ltac:(lia) ltac:(constructor) ltac:(intros a Ha; by apply elem_of_nil in Ha)) as H0.
  destruct (lg_owe _ L) as [n O]. destruct (ledger_sums s n L S O) as (X & HN & A1 & _ & _ & E1 & E2 & _).
  assert (E : user_principal s = list_sum (fun a => if is_user a then prin s a else 0) X).
  { unfold user_principal. change (map_fold _ 0 ?m) with (fsum (fun a (z : Z) => match a with AUser _ => z | _ => 0 end) m).
    set (m := d_principal (st_dollar s)) in *. change (prin s) with (mget m).
    assert (E3 : fsum (fun a (z : Z) => match a with AUser _ => z | _ => 0 end) m = msum (map_imap (fun a z => Some (if is_user a then z else 0)) m)).
    { clear. induction m as [|k v m Hk IH] using map_ind; [done|]. rewrite fsum_insert_fresh by done. rewrite IH.
      rewrite map_imap_insert_Some with (y := if is_user k then v else 0) by done. rewrite msum_insert. unfold mget. rewrite map_lookup_imap, Hk. cbn.
      destruct k; cbn; lia. }
    rewrite E3. rewrite (msum_over _ X HN).
    - apply list_sum_ext. intros a _. unfold mget. rewrite map_lookup_imap. destruct (m !! a); cbn; by destruct (is_user a).
    - intros k. rewrite map_lookup_imap. intros Hk. apply A1. destruct (m !! k); [eauto|]. by destruct Hk. }
  assert (list_sum (fun a => if is_user a then prin s a else 0) X <= list_sum (fun a => prin s a + mget n a) X).
  { apply list_sum_le. intros a _. destruct O as [O1 _ O3]. specialize (O1 a). destruct (is_user a); [lia|].
    destruct (decide (ordinary a)) as [Ha|Ha].
    - specialize (O3 a Ha). pose proof (lg_bal _ L a). destruct (Z.le_gt_cases 0 (prin s a + mget n a)) as [|L1]; [done|].
      assert ((prin s a + mget n a) * current_index s <= -1 * current_index s) by (apply Z.mul_le_mono_nonneg_r; lia). unfold e12 in *. lia.
    - destruct (lg_special _ L) as [P1 P2]. destruct (decide (a = YieldA)) as [-> | ]; [lia|].
      assert (a = ModuleA) as -> by (destruct (decide (a = ModuleA)); [done|by destruct Ha]). lia. }
  rewrite list_sum_plus, E1, E2 in H. pose proof (lg_gap _ L) as Hg. unfold gap in Hg. destruct O. lia.
Qed.

Theorem index_large c s x bz index : chain_ok c -> c_blocked c YieldA = true -> reachable c s -> p_paused (st_portal s) = false ->
  index_message c s bz index -> claims_unblocked c -> routes_usable c s -> update_in_range c s ->
  (v_ended (st_vaults s) = true -> bystander (v_collector (st_vaults s))) ->
  (2 * transfer_count s + 1) * index <= user_principal s * (index - current_index s) ->
  exists s', exec c (OpDeliver x bz) s = Ok s' tt /\ current_index s' = index.
Proof.
  intros Hc Hy Hr Hp Hm Hub Hu Hran Hcol H. change (transfer_count s) with (sends s) in H.
  destruct (low_reachable _ _ Hc Hy Hr) as (L & S & Hlow). pose proof (wf_module _ _ (reach_w _ _ Hc Hr)) as Hmod.
  assert (Hi : current_index s < index < 2 ^ 63) by (destruct Hm as (? & ? & ? & ? & ? & Hm); apply Hm).
  pose proof (lg_index _ L) as Hi0. pose proof (lg_sends _ L) as Hs0. pose proof (user_principal_le s L S Hmod) as Hup.
  destruct (index_claims_le s index L) as (l & Hl1 & Hl2 & Hl3).
  pose proof (claims_users s index l L S Hmod ltac:(lia) Hl1 Hl2) as Hcl.
  assert (K1 : user_principal s * (index - current_index s) <= (total_principal s + 2 * sends s) * (index - current_index s)) by (apply Z.mul_le_mono_nonneg_r; lia).
  assert (K2 : sends s * current_index s <= sends s * index) by (apply Z.mul_le_mono_nonneg_l; lia).
  set (i0 := current_index s) in *. clearbody i0. set (up0 := user_principal s * (index - i0)) in *. clearbody up0.
  assert (A : supply s * unit_index <= total_principal s * index) by (change unit_index with e12; nia).
  apply index_accepted; auto.
  - unfold floor_div. apply Z.div_le_lower_bound; [done|lia].
  - assert (index_claims s index * e12 <= list_sum (claim_at s index) l * e12) by (apply Z.mul_le_mono_nonneg_r; [unfold e12; lia|done]).
    assert (B : (index_claims s index - bal s YieldA + supply s) * unit_index <= total_principal s * index) by (change unit_index with e12; lia).
    unfold floor_div. assert (index_claims s index - bal s YieldA + supply s <= total_principal s * index / unit_index); [|lia].
    apply Z.div_le_lower_bound; [done|lia].
Qed.
