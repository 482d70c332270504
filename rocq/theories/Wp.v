(** Program logic for the monad: [wp m s Q E] says that running [m] in [s] gives a
    state and value in [Q], or an error state in [E], or panics. *)
From Verif Require Export State.

Definition wp {A} (m : M A) (s : state) (Q : state -> A -> Prop) (E : state -> err -> Prop) : Prop :=
  match m s with Ok s' a => Q s' a | Err s' e => E s' e | Panic => True end.

Lemma wp_mono {A} (m : M A) s (Q Q' : state -> A -> Prop) (E E' : state -> err -> Prop) :
  wp m s Q E -> (forall s' a, Q s' a -> Q' s' a) -> (forall s' e, E s' e -> E' s' e) -> wp m s Q' E'.
Proof. unfold wp. destruct (m s); auto. Qed.
Lemma wp_bind {A B} (m : M A) (f : A -> M B) s Q E :
  wp m s (fun s' a => wp (f a) s' Q E) E -> wp (bind m f) s Q E.
Proof. unfold wp, bind. destruct (m s); auto. Qed.
Lemma wp_ret {A} (a : A) s (Q : state -> A -> Prop) E : Q s a -> wp (ret a) s Q E.
Proof. auto. Qed.
Lemma wp_fail {A} e s (Q : state -> A -> Prop) (E : state -> err -> Prop) : E s e -> wp (fail e) s Q E.
Proof. auto. Qed.
Lemma wp_panic {A} s (Q : state -> A -> Prop) E : wp panic s Q E.
Proof. done. Qed.
Lemma wp_gets {A} (f : state -> A) s (Q : state -> A -> Prop) E : Q s (f s) -> wp (gets f) s Q E.
Proof. auto. Qed.
Lemma wp_modify f s (Q : state -> unit -> Prop) E : Q (f s) tt -> wp (modify f) s Q E.
Proof. auto. Qed.
Lemma wp_lift {A} (p : pres A) s (Q : state -> A -> Prop) (E : state -> err -> Prop) :
  (forall a, p = POk a -> Q s a) -> (forall e, p = PErr e -> E s e) -> wp (lift p) s Q E.
Proof. unfold wp, lift. destruct p; auto. Qed.
Lemma wp_try {A} (m : M A) s (Q : state -> bool -> Prop) E :
  wp m s (fun s' _ => Q s' true) (fun s' _ => Q s' false) -> wp (try m) s Q E.
Proof. unfold wp, try. destruct (m s); auto. Qed.
Lemma wp_ok {A} (m : M A) s Q E s' a : wp m s Q E -> m s = Ok s' a -> Q s' a.
Proof. unfold wp. intros H Hm. by rewrite Hm in H. Qed.
Lemma wp_err {A} (m : M A) s (Q : state -> A -> Prop) (E : state -> err -> Prop) s' e :
  wp m s Q E -> m s = Err s' e -> E s' e.
Proof. unfold wp. intros H Hm. by rewrite Hm in H. Qed.
Lemma wp_conj {A} (m : M A) s Q1 E1 Q2 E2 :
  wp m s Q1 E1 -> wp m s Q2 E2 ->
  wp m s (fun s' a => Q1 s' a /\ Q2 s' a) (fun s' e => E1 s' e /\ E2 s' e).
Proof. unfold wp. destruct (m s); auto. Qed.

(** Inversion of successful runs. *)
Lemma bind_ok {A B} (m : M A) (f : A -> M B) s s' b :
  bind m f s = Ok s' b -> exists s1 a, m s = Ok s1 a /\ f a s1 = Ok s' b.
Proof. unfold bind. destruct (m s); try discriminate. eauto. Qed.
Lemma lift_ok {A} (p : pres A) s s' a : lift p s = Ok s' a -> p = POk a /\ s' = s.
Proof. unfold lift. destruct p; try discriminate. intros; split; congruence. Qed.
Lemma gets_ok {A} (f : state -> A) s s' a : gets f s = Ok s' a -> a = f s /\ s' = s.
Proof. unfold gets. intros; split; congruence. Qed.
Lemma modify_ok f s s' u : modify f s = Ok s' u -> s' = f s.
Proof. unfold modify. congruence. Qed.
Lemma ret_ok {A} (a b : A) s s' : ret a s = Ok s' b -> b = a /\ s' = s.
Proof. unfold ret. intros; split; congruence. Qed.
Lemma fail_ok {A} e s s' (b : A) : fail e s = Ok s' b -> False.
Proof. discriminate. Qed.
Lemma panic_ok {A} s s' (b : A) : panic s = Ok s' b -> False.
Proof. discriminate. Qed.
Lemma try_ok {A} (m : M A) s s' b : try m s = Ok s' b ->
  (b = true /\ exists a, m s = Ok s' a) \/ (b = false /\ exists e, m s = Err s' e).
Proof. unfold try. destruct (m s); try discriminate; intros [=]; subst; eauto. Qed.

(** Arithmetic primitives *)
Lemma int_chk_ok z r : int_chk z = POk r -> r = z.
Proof. unfold int_chk. destruct (int_fits z); congruence. Qed.
Lemma int_add_ok a b r : int_add a b = POk r -> r = a + b.
Proof. apply int_chk_ok. Qed.
Lemma int_sub_ok a b r : int_sub a b = POk r -> r = a - b.
Proof. apply int_chk_ok. Qed.
Lemma int_mul_ok a b r : int_mul a b = POk r -> r = a * b.
Proof. apply int_chk_ok. Qed.
Lemma int_quo_ok a b r : int_quo a b = POk r -> b <> 0 /\ r = Z.quot a b.
Proof. unfold int_quo. destruct (b =? 0) eqn:E; [discriminate|]. intros [= <-]. split; auto. lia. Qed.
Lemma int_safe_add_ok a b r : int_safe_add a b = POk r -> r = a + b.
Proof. unfold int_safe_add. destruct int_fits; congruence. Qed.
Lemma int_safe_sub_ok a b r : int_safe_sub a b = POk r -> r = a - b.
Proof. unfold int_safe_sub. destruct int_fits; congruence. Qed.
Lemma int_chk_err z e : int_chk z = PErr e -> False.
Proof. unfold int_chk. destruct (int_fits z); discriminate. Qed.
Lemma int_chk_fits z : int_fits z = true -> int_chk z = POk z.
Proof. unfold int_chk. by intros ->. Qed.
