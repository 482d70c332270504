(** Showing that messages succeed. *)
From Verif Require Export UserP.

(** [m] succeeds in [s] and the result satisfies [Q]. *)
Definition runs {A} (m : M A) (s : state) (Q : state -> A -> Prop) : Prop :=
  match m s with Ok s' a => Q s' a | _ => False end.
Lemma runs_ret {A} (a : A) s (Q : state -> A -> Prop) : Q s a -> runs (ret a) s Q.
Proof. done. Qed.
Lemma runs_bind {A B} (m : M A) (f : A -> M B) s (Q : state -> B -> Prop) :
  runs m s (fun s' a => runs (f a) s' Q) -> runs (bind m f) s Q.
Proof. unfold runs, bind. by destruct (m s). Qed.
Lemma runs_gets {A} (f : state -> A) s (Q : state -> A -> Prop) : Q s (f s) -> runs (gets f) s Q.
Proof. done. Qed.
Lemma runs_modify f s (Q : state -> unit -> Prop) : Q (f s) tt -> runs (modify f) s Q.
Proof. done. Qed.
Lemma runs_lift {A} (p : pres A) a s (Q : state -> A -> Prop) : p = POk a -> Q s a -> runs (lift p) s Q.
Proof. intros -> H. done. Qed.
Lemma runs_mono {A} (m : M A) s (Q Q' : state -> A -> Prop) : runs m s Q -> (forall s' a, Q s' a -> Q' s' a) -> runs m s Q'.
Proof. unfold runs. destruct (m s); auto. Qed.
Lemma runs_wp {A} (m : M A) s (Q Q' : state -> A -> Prop) E : wp m s Q E -> runs m s Q' -> runs m s (fun s' a => Q s' a /\ Q' s' a).
Proof. unfold runs, wp. destruct (m s); auto. Qed.
Lemma runs_ok {A} (m : M A) s (Q : state -> A -> Prop) : runs m s Q -> exists s' a, m s = Ok s' a /\ Q s' a.
Proof. unfold runs. destruct (m s); [eauto|done|done]. Qed.
Lemma runs_of_ok {A} (m : M A) s s' a (Q : state -> A -> Prop) : m s = Ok s' a -> Q s' a -> runs m s Q.
Proof. unfold runs. by intros ->. Qed.
(** [try] succeeds unless its argument panics. *)
Lemma runs_try {A} (m : M A) s (Q : state -> bool -> Prop) :
  m s <> Panic -> (forall s' a, m s = Ok s' a -> Q s' true) -> (forall s' e, m s = Err s' e -> Q s' false) -> runs (try m) s Q.
Proof. unfold runs, try. destruct (m s) eqn:E; [intros _ H _; eauto|intros _ _ H; eauto|done]. Qed.

(** * Integers *)
Lemma int_chk_run z : int_range z -> int_chk z = POk z.
Proof. intros H. unfold int_chk, int_fits. by rewrite (proj2 (Z.ltb_lt _ _)). Qed.
Lemma int_safe_add_run a b : int_range (a + b) -> int_safe_add a b = POk (a + b).
Proof. intros H. unfold int_safe_add, int_fits. by rewrite (proj2 (Z.ltb_lt _ _)). Qed.
Lemma int_safe_sub_run a b : int_range (a - b) -> int_safe_sub a b = POk (a - b).
Proof. intros H. unfold int_safe_sub, int_fits. by rewrite (proj2 (Z.ltb_lt _ _)). Qed.
Lemma principal_up_run a i : 0 <= a -> 0 < i -> int_range (a * e12 + i) -> principal_up a i = POk (up a i).
Proof.
  intros Ha Hi Hr. unfold principal_up, int_mul, int_add, int_sub.
  assert (0 <= a * e12) by (unfold e12; lia).
  rewrite (int_chk_run (a * e12)) by (unfold int_range in *; lia). cbn [pbind].
  rewrite (int_chk_run (a * e12 + i)) by done. cbn [pbind].
  rewrite (int_chk_run (a * e12 + i - 1)) by (unfold int_range in *; lia). cbn [pbind].
  unfold int_quo. by rewrite (proj2 (Z.eqb_neq i 0)) by lia.
Qed.
Lemma principal_down_run a i : 0 < i -> int_range (a * e12) -> principal_down a i = POk (down a i).
Proof.
  intros Hi Hr. unfold principal_down, int_mul. rewrite int_chk_run by done. cbn [pbind].
  unfold int_quo. by rewrite (proj2 (Z.eqb_neq i 0)) by lia.
Qed.
Lemma present_amount_run p i : int_range (p * i) -> present_amount p i = POk (present p i).
Proof. intros Hr. unfold present_amount, int_mul. rewrite int_chk_run by done. done. Qed.

(** * Bank transfers succeed exactly when funded *)
Record send_fits (s : state) (f t : addr) (x : Z) : Prop := {
  sf_mul : int_range (x * e12 + current_index s);
  sf_from : int_range (prin s f - up x (current_index s));
  sf_to : int_range (prin s t + up x (current_index s));
  sf_self : f = t -> int_range (prin s t);
  sf_bal : int_range (bal s t + x)
}.
Lemma send_run s f t x : ordinary f -> ordinary t -> 0 < x <= bal s f -> 0 < current_index s -> send_fits s f t x ->
  send_coins f t x s = Ok (send_result s f t x) tt.
Proof.
  intros [Hf1 Hf2] [Ht1 Ht2] Hx Hi [F1 F2 F3 F5 F4].
  cut (runs (send_coins f t x) s (fun _ _ => True)).
  { intros R. pose proof (runs_wp _ _ _ _ _ (send_coins_cases f t x s ltac:(lia)) R) as R'.
    apply runs_ok in R' as (s' & [] & -> & (_ & _ & ->) & _). done. }
  unfold send_coins. rewrite (proj2 (Z.eqb_neq x 0)) by lia.
  apply runs_bind. unfold sub_coins. apply runs_bind, runs_gets. rewrite (proj2 (Z.ltb_ge (bal s f) x)) by lia.
  unfold set_bal. apply runs_modify.
  set (s1 := s <| st_bank; bk_bal ::= <[f:=bal s f - x]> |>).
  apply runs_bind. unfold send_restriction. rewrite (proj2 (Z.eqb_neq x 0)) by lia. rewrite !bool_decide_false by done.
  apply runs_bind. unfold get_index. apply runs_gets. apply runs_bind. eapply runs_lift; [apply principal_up_run; [lia|exact Hi|exact F1]|].
  change (current_index s1) with (current_index s).
  apply runs_bind. apply runs_bind. unfold get_principal. apply runs_gets. change (prin s1 f) with (prin s f).
  apply runs_bind. eapply runs_lift; [apply int_chk_run; exact F2|].
  apply runs_bind. unfold set_principal. apply runs_modify.
  set (s2 := s1 <| st_dollar; d_principal := _ |>).
  apply runs_bind, runs_gets.
  set (D := fun s => s <| st_dollar; d_stats; ds_holders ::= fun n => if 0 <? n then n - 1 else n |>).
  assert (HD : forall (Q : state -> unit -> Prop) b s, Q s tt -> Q (D s) tt -> runs (whenb b decrement_total_holders) s Q).
  { intros Q [] ?; intros; [by apply runs_modify|by apply runs_ret]. }
  assert (Hcont : forall s3, st_bank s3 = st_bank s1 -> d_principal (st_dollar s3) = d_principal (st_dollar s2) ->
    runs (p' <- ret (up x (current_index s));; tp <- gets (fun s => prin s t);; tp' <- lift (int_add tp p');;
      modify (fun s => s <| st_dollar; d_principal := <[t:=tp']> (d_principal (st_dollar s)) |>);;;
      b <- gets (fun s => bal s t);; whenb (b =? 0) increment_total_holders) s3
      (fun s' _ => runs (add_coins t x;;; modify (fun s => s <| st_bank; bk_sends ::= Z.succ |>)) s' (fun _ _ => True))).
  { intros s3 Hb Hp. apply runs_bind, runs_ret, runs_bind, runs_gets, runs_bind.
    eapply runs_lift.
    { apply int_chk_run. unfold prin. rewrite Hp. subst s2. cbn. destruct (decide (t = f)) as [->|Hne].
      - rewrite lookup_insert. cbn. specialize (F5 eq_refl). unfold int_range in *. lia.
      - rewrite lookup_insert_ne by done. exact F3. }
    apply runs_bind, runs_modify, runs_bind, runs_gets.
    assert (Hfin : forall s4, st_bank s4 = st_bank s1 ->
      runs (add_coins t x;;; modify (fun s => s <| st_bank; bk_sends ::= Z.succ |>)) s4 (fun _ _ => True)).
    { intros s4 Hb4. apply runs_bind. unfold add_coins. apply runs_bind, runs_gets, runs_bind.
      eapply runs_lift.
      { apply int_chk_run. unfold bal. rewrite Hb4. subst s1. cbn. destruct (decide (t = f)) as [->|Hne].
        - rewrite lookup_insert. cbn. unfold int_range in *. lia.
        - rewrite lookup_insert_ne by done. exact F4. }
      unfold set_bal. by apply runs_modify, runs_modify. }
    unfold whenb, increment_total_holders. case_match; [apply runs_modify|apply runs_ret]; apply Hfin; done. }
  apply HD; apply Hcont; done.
Qed.
