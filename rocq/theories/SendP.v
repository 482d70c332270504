(** Exact effect of bank transfers with the send restriction. *)
From Verif Require Export Dollar MapSum Wp.

Ltac Zify.zify_post_hook ::= Z.to_euclidean_division_equations.

(** Mathematical versions of the conversions (without overflow). *)
Definition up (a i : Z) : Z := Z.quot (a * e12 + i - 1) i.
Definition down (a i : Z) : Z := Z.quot (a * e12) i.
Definition present (p i : Z) : Z := Z.quot (p * i) e12.

Lemma principal_up_ok a i r : principal_up a i = POk r -> i <> 0 /\ r = up a i.
Proof.
  unfold principal_up, pbind. destruct (int_mul a e12) as [x| |] eqn:E1; try discriminate.
  destruct (int_add x i) as [y| |] eqn:E2; try discriminate.
  destruct (int_sub y 1) as [z| |] eqn:E3; try discriminate.
  intros [? ->]%int_quo_ok.
  apply int_mul_ok in E1. apply int_add_ok in E2. apply int_sub_ok in E3. subst. auto.
Qed.
Lemma principal_down_ok a i r : principal_down a i = POk r -> i <> 0 /\ r = down a i.
Proof.
  unfold principal_down, pbind. destruct (int_mul a e12) as [x| |] eqn:E1; try discriminate.
  intros [? ->]%int_quo_ok. apply int_mul_ok in E1. subst. auto.
Qed.
Lemma present_amount_ok p i r : present_amount p i = POk r -> r = present p i.
Proof.
  unfold present_amount, pbind. destruct (int_mul p i) as [x| |] eqn:E1; try discriminate.
  intros [? ->]%int_quo_ok. apply int_mul_ok in E1. subst. auto.
Qed.
Lemma principal_up_err a i e : principal_up a i = PErr e -> False.
Proof.
  unfold principal_up, pbind, int_mul, int_add, int_sub, int_quo, int_chk.
  repeat (case_match; try discriminate); congruence.
Qed.
Lemma principal_down_err a i e : principal_down a i = PErr e -> False.
Proof.
  unfold principal_down, pbind, int_mul, int_add, int_sub, int_quo, int_chk.
  repeat (case_match; try discriminate); congruence.
Qed.
Lemma present_amount_err a i e : present_amount a i = PErr e -> False.
Proof.
  unfold present_amount, pbind, int_mul, int_add, int_sub, int_quo, int_chk.
  repeat (case_match; try discriminate); congruence.
Qed.

Lemma up_nonneg a i : 0 <= a -> 0 < i -> 0 <= up a i.
Proof. unfold up, e12. intros. apply Z.quot_pos; lia. Qed.
Lemma down_nonneg a i : 0 <= a -> 0 < i -> 0 <= down a i.
Proof. unfold down, e12. intros. apply Z.quot_pos; lia. Qed.
Lemma up_bounds a i : 0 <= a -> 0 < i -> a * e12 <= up a i * i < a * e12 + i.
Proof.
  unfold up. intros. assert (0 <= a * e12) by (unfold e12; lia).
  rewrite Z.quot_div_nonneg by lia.
  pose proof (Z.div_mod (a * e12 + i - 1) i ltac:(lia)).
  pose proof (Z.mod_pos_bound (a * e12 + i - 1) i ltac:(lia)). nia.
Qed.
Lemma down_bounds a i : 0 <= a -> 0 < i -> a * e12 - i < down a i * i <= a * e12.
Proof.
  unfold down. intros. assert (0 <= a * e12) by (unfold e12; lia).
  rewrite Z.quot_div_nonneg by lia.
  pose proof (Z.div_mod (a * e12) i ltac:(lia)).
  pose proof (Z.mod_pos_bound (a * e12) i ltac:(lia)). nia.
Qed.
Lemma up_pos a i : 0 < a -> 0 < i -> 0 < up a i.
Proof. intros. pose proof (up_bounds a i ltac:(lia) ltac:(lia)). unfold e12 in *. nia. Qed.
Lemma down_le_up a i : 0 <= a -> 0 < i -> down a i <= up a i <= down a i + 1.
Proof.
  intros. pose proof (up_bounds a i ltac:(lia) ltac:(lia)).
  pose proof (down_bounds a i ltac:(lia) ltac:(lia)). nia.
Qed.

(** Holders statistic updates. *)
Definition dec_sat (n : Z) : Z := if 0 <? n then n - 1 else n.

(** The state after a transfer of [amt] from [from] to [to] that was let through. *)
Definition send_prin (from to : addr) (amt i : Z) (P : gmap addr Z) : gmap addr Z :=
  if decide (from = YieldA) then P else
  if decide (to = YieldA) then P else
  if decide (from = ModuleA) then
    if decide (to = ModuleA) then P else addz to (down amt i) P
  else if decide (to = ModuleA) then addz from (- up amt i) P
  else addz to (up amt i) (addz from (- up amt i) P).
Definition send_tp (from to : addr) (amt i tp : Z) : Z :=
  if decide (from = YieldA) then tp else
  if decide (to = YieldA) then tp else
  if decide (from = ModuleA) then
    if decide (to = ModuleA) then tp else tp + up amt i
  else if decide (to = ModuleA) then tp - up amt i
  else tp.
(** [B] is the balance map after the debit. *)
Definition send_holders (from to : addr) (B : gmap addr Z) (h : Z) : Z :=
  if decide (from = YieldA) then h else
  if decide (to = YieldA) then h else
  let h1 := if decide (from = ModuleA) then h else if mget B from =? 0 then dec_sat h else h in
  if decide (to = ModuleA) then h1 else if mget B to =? 0 then wrap_u64 (h1 + 1) else h1.
Definition send_result (s : state) (from to : addr) (amt : Z) : state :=
  let B := addz from (- amt) (bk_bal (st_bank s)) in
  mk_state
    (mk_bank (addz to amt B) (supply s) (Z.succ (bk_sends (st_bank s))))
    (st_dollar s
      <| d_principal := send_prin from to amt (current_index s) (d_principal (st_dollar s)) |>
      <| d_stats := mk_dstats (send_holders from to B (ds_holders (d_stats (st_dollar s))))
                      (send_tp from to amt (current_index s) (total_principal s))
                      (ds_yield (d_stats (st_dollar s))) |>)
    (st_portal s) (st_vaults s) (st_world s).

Lemma int_add_err a b e : int_add a b = PErr e -> False.
Proof. apply int_chk_err. Qed.
Lemma int_sub_err a b e : int_sub a b = PErr e -> False.
Proof. apply int_chk_err. Qed.
Lemma int_mul_err a b e : int_mul a b = PErr e -> False.
Proof. apply int_chk_err. Qed.
Lemma int_safe_add_err a b e : int_safe_add a b = PErr e -> e = EOverflow.
Proof. unfold int_safe_add. destruct int_fits; congruence. Qed.
Lemma int_safe_sub_err a b e : int_safe_sub a b = PErr e -> e = EOverflow.
Proof. unfold int_safe_sub. destruct int_fits; congruence. Qed.

Ltac bd := match goal with
  | |- context [bool_decide (?P)] => destruct (bool_decide_reflect P)
  end.

(** When the restriction lets a transfer through. *)
Definition send_allowed (from to : addr) : Prop :=
  from = YieldA \/ to <> YieldA \/ from = ModuleA.

Lemma ctx_eq (s : state) : s = mk_state (st_bank s) (st_dollar s) (st_portal s) (st_vaults s) (st_world s).
Proof. by destruct s. Qed.

Lemma send_coins_cases from to amt s :
  amt <> 0 ->
  wp (send_coins from to amt) s
    (fun s' _ => amt <= bal s from /\ send_allowed from to /\ s' = send_result s from to amt)
    (fun s' e => (bal s from < amt /\ s' = s /\ e = EInsufficientFunds) \/
                 (amt <= bal s from /\ ~ send_allowed from to /\ e = EToYield) \/
                 (amt <= bal s from /\ (from = ModuleA \/ to = ModuleA) /\ from <> YieldA /\ to <> YieldA /\ e = EOverflow)).
Proof.
  intros Hamt. unfold send_coins. rewrite (proj2 (Z.eqb_neq amt 0)) by auto.
  apply wp_bind. unfold sub_coins. apply wp_bind, wp_gets.
  destruct (Z.ltb_spec (bal s from) amt) as [Hlt|Hge].
  { apply wp_fail. auto. }
  unfold set_bal. apply wp_modify, wp_bind.
  unfold send_restriction. rewrite (proj2 (Z.eqb_neq amt 0)) by auto.
  set (s1 := s <| st_bank; bk_bal ::= <[from:=bal s from - amt]> |>).
  assert (HB : bk_bal (st_bank s1) = addz from (- amt) (bk_bal (st_bank s))).
  { subst s1. cbn. unfold addz, bal, mget. f_equal. }
  (* what remains after the restriction *)
  assert (Htail : forall s2 (Q : state -> unit -> Prop) (E : state -> err -> Prop),
    bk_bal (st_bank s2) = bk_bal (st_bank s1) ->
    Q (mk_state (mk_bank (addz to amt (bk_bal (st_bank s1))) (supply s2) (Z.succ (bk_sends (st_bank s2))))
         (st_dollar s2) (st_portal s2) (st_vaults s2) (st_world s2)) tt ->
    wp (add_coins to amt ;;; modify (fun s => s <| st_bank; bk_sends ::= Z.succ |>)) s2 Q E).
  { intros s2 Q E Hb HQ. unfold add_coins. apply wp_bind, wp_bind, wp_gets, wp_bind, wp_lift.
    2:{ intros e He. by apply int_add_err in He. }
    intros b' Hb'. apply int_add_ok in Hb'. subst b'. unfold set_bal. apply wp_modify, wp_modify.
    unfold addz in HQ. rewrite <- Hb in HQ. exact HQ. }
  bd.
  { apply wp_ret. apply Htail; auto.
    rewrite HB. unfold send_allowed. split; [auto|]. split; [auto|].
    unfold send_result, send_prin, send_holders, send_tp. rewrite !decide_True by auto.
    destruct s as [b d p v w], d, d_stats; done. }
  bd.
  { bd.
    - apply wp_ret. apply Htail; auto.
      rewrite HB. unfold send_allowed. split; [auto|]. split; [auto|].
      unfold send_result, send_prin, send_holders, send_tp.
      repeat case_decide; try congruence. destruct s as [b d p v w], d, d_stats; done.
    - apply wp_fail. right; left. split; [auto|]. split; [|auto]. unfold send_allowed. tauto. }
  apply wp_bind. unfold get_index. apply wp_gets, wp_bind, wp_lift.
  2:{ intros e He. by apply principal_up_err in He. }
  intros pu [Hi ->]%principal_up_ok.
  assert (Hi1 : current_index s1 = current_index s) by done. rewrite Hi1 in *.
  set (i := current_index s) in *.
  bd.
  - (* from the module *)
    subst from. apply wp_bind. unfold increment_total_principal, get_total_principal.
    apply wp_bind, wp_gets, wp_bind, wp_lift.
    2:{ intros e He. apply int_safe_add_err in He. right; right. auto. }
    intros z Hz. apply int_safe_add_ok in Hz. subst z.
    unfold set_total_principal. apply wp_modify.
    bd.
    + subst to. unfold decrement_total_principal, get_total_principal.
      apply wp_bind, wp_gets, wp_bind, wp_lift.
      2:{ intros e He. apply int_safe_sub_err in He. right; right. auto. }
      intros z Hz. apply int_safe_sub_ok in Hz. subst z. unfold set_total_principal. apply wp_modify.
      apply Htail; [done|]. rewrite HB. split; [auto|]. split; [unfold send_allowed; auto|].
      unfold send_result, send_prin, send_holders, send_tp.
      rewrite !(decide_False (P := ModuleA = YieldA)) by auto.
      rewrite !(decide_True (P := ModuleA = ModuleA)) by auto.
      destruct s as [b d p v w], d, d_stats. unfold total_principal, set; cbn.
      match goal with |- context [?a + ?b - ?b] => replace (a + b - b) with a by lia end. done.
    + apply wp_bind, wp_lift.
      2:{ intros e He. by apply principal_down_err in He. }
      intros pd [_ ->]%principal_down_ok.
      unfold get_principal. apply wp_bind, wp_gets, wp_bind, wp_lift.
      2:{ intros e He. by apply int_add_err in He. }
      intros z Hz. apply int_add_ok in Hz. subst z.
      unfold set_principal. apply wp_bind, wp_modify, wp_bind, wp_gets.
      unfold whenb, increment_total_holders.
      assert (Hsplit : forall b : bool, forall t (Q : state -> unit -> Prop) E,
         (if b then Q (t <| st_dollar; d_stats; ds_holders ::= fun n => wrap_u64 (n + 1) |>) tt else Q t tt) ->
         wp (if b then modify (fun s => s <| st_dollar; d_stats; ds_holders ::= fun n => wrap_u64 (n + 1) |>) else ret tt) t Q E).
      { intros []; auto. }
      apply Hsplit. clear Hsplit.
      match goal with |- if ?b then _ else _ => destruct b eqn:Hb end.
      all: apply Htail; [done|]; rewrite HB; split; [auto|]; split; [unfold send_allowed; auto|].
      all: unfold send_result, send_prin, send_holders, send_tp.
      all: rewrite !(decide_False (P := ModuleA = YieldA)) by auto.
      all: rewrite !(decide_True (P := ModuleA = ModuleA)) by auto.
      all: rewrite !(decide_False (P := to = YieldA)) by auto.
      all: rewrite !(decide_False (P := to = ModuleA)) by auto.
      all: rewrite <- HB; unfold bal in Hb; unfold mget;
           match type of Hb with (?x =? 0) = _ => change (default 0 (bk_bal (st_bank s1) !! to)) with x end; rewrite Hb.
      all: unfold addz, mget; destruct s as [b d p v w], d, d_stats; done.
  - (* from a user *)
    apply wp_bind. unfold get_principal. apply wp_bind, wp_gets, wp_bind, wp_lift.
    2:{ intros e He. by apply int_sub_err in He. }
    intros z Hz. apply int_sub_ok in Hz. subst z.
    unfold set_principal. apply wp_bind, wp_modify, wp_bind, wp_gets.
    unfold whenb, increment_total_holders, decrement_total_holders.
    assert (Hsplit : forall (b : bool) f, forall t (Q : state -> unit -> Prop) E,
         (Q (if b then (t <| st_dollar; d_stats; ds_holders ::= f |>) else t) tt) ->
         wp (if b then modify (fun s => s <| st_dollar; d_stats; ds_holders ::= f |>) else ret tt) t Q E).
    { intros []; auto. }
    apply Hsplit.
    bd.
    + subst to. unfold decrement_total_principal, get_total_principal.
      apply wp_bind, wp_gets, wp_bind, wp_lift.
      2:{ intros e He. apply int_safe_sub_err in He. right; right. auto. }
      intros z Hz. apply int_safe_sub_ok in Hz. subst z. unfold set_total_principal. apply wp_modify.
      match goal with |- context [if ?b =? 0 then _ else _] => destruct (b =? 0) eqn:Hb end.
      all: apply Htail; [done|]; rewrite HB; split; [auto|]; split; [unfold send_allowed; auto|].
      all: unfold send_result, send_prin, send_holders, send_tp.
      all: rewrite !(decide_False (P := from = YieldA)) by auto.
      all: rewrite !(decide_False (P := ModuleA = YieldA)) by auto.
      all: rewrite !(decide_False (P := from = ModuleA)) by auto.
      all: rewrite !(decide_True (P := ModuleA = ModuleA)) by auto.
      all: rewrite <- HB; unfold bal in Hb; unfold mget;
           match type of Hb with (?x =? 0) = _ => change (default 0 (bk_bal (st_bank s1) !! from)) with x end; rewrite Hb.
      all: unfold addz, mget; destruct s as [b d p v w], d, d_stats; done.
    + apply wp_bind, wp_ret.
      apply wp_bind, wp_gets, wp_bind, wp_lift.
      2:{ intros e He. by apply int_add_err in He. }
      intros z Hz. apply int_add_ok in Hz. subst z.
      apply wp_bind, wp_modify, wp_bind, wp_gets. apply Hsplit.
      match goal with |- context [bal ?t from =? 0] => destruct (bal t from =? 0) eqn:Hb end;
        match goal with |- context [bal ?t to =? 0] => destruct (bal t to =? 0) eqn:Hb2 end.
      all: apply Htail; [done|]; rewrite HB; split; [auto|]; split; [unfold send_allowed; auto|].
      all: unfold send_result, send_prin, send_holders, send_tp.
      all: rewrite !(decide_False (P := from = YieldA)) by auto.
      all: rewrite !(decide_False (P := to = YieldA)) by auto.
      all: rewrite !(decide_False (P := from = ModuleA)) by auto.
      all: rewrite !(decide_False (P := to = ModuleA)) by auto.
      all: rewrite <- HB; unfold bal in Hb, Hb2; unfold mget;
           match type of Hb with (?x =? 0) = _ => change (default 0 (bk_bal (st_bank s1) !! from)) with x end; rewrite Hb;
           match type of Hb2 with (?x =? 0) = _ => change (default 0 (bk_bal (st_bank s1) !! to)) with x end; rewrite Hb2.
      all: unfold addz, mget; destruct s as [b d p v w], d, d_stats; cbn; unfold prin; cbn; try done.
Qed.
