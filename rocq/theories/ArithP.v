(** Facts about the principal conversions. *)
From Verif Require Export SendP.

Lemma int_fits_lt z : int_fits z = true <-> Z.abs z < 2 ^ 256.
Proof. unfold int_fits. apply Z.ltb_lt. Qed.

Lemma principal_down_eq a i : 0 <= a -> 0 < i ->
  principal_down a i = if decide (a * e12 < 2 ^ 256) then POk (a * e12 / i) else PPanic.
Proof.
  intros Ha Hi. unfold principal_down, pbind, int_mul, int_chk.
  assert (0 <= a * e12) by (unfold e12; lia).
  case_decide as H1.
  - rewrite (proj2 (int_fits_lt _)) by lia. unfold int_quo. rewrite (proj2 (Z.eqb_neq i 0)) by lia.
    f_equal. apply Z.quot_div_nonneg; lia.
  - destruct (int_fits (a * e12)) eqn:E; [|done]. apply int_fits_lt in E. lia.
Qed.
Lemma principal_up_eq a i : 0 <= a -> 0 < i ->
  principal_up a i = if decide (a * e12 + i < 2 ^ 256) then POk ((a * e12 + i - 1) / i) else PPanic.
Proof.
  intros Ha Hi. unfold principal_up, pbind, int_mul, int_add, int_sub, int_chk.
  assert (0 <= a * e12) by (unfold e12; lia).
  case_decide as H1.
  - rewrite !(proj2 (int_fits_lt _)) by lia. unfold int_quo. rewrite (proj2 (Z.eqb_neq i 0)) by lia.
    f_equal. apply Z.quot_div_nonneg; lia.
  - destruct (int_fits (a * e12)) eqn:E1; [|done].
    destruct (int_fits (a * e12 + i)) eqn:E; [|done]. apply int_fits_lt in E. lia.
Qed.
Lemma present_amount_eq p i : 0 <= p -> 0 < i ->
  present_amount p i = if decide (p * i < 2 ^ 256) then POk (p * i / e12) else PPanic.
Proof.
  intros Ha Hi. unfold present_amount, pbind, int_mul, int_chk.
  assert (0 <= p * i) by nia.
  case_decide as H1.
  - rewrite (proj2 (int_fits_lt _)) by lia. unfold int_quo. cbn [e12 Z.eqb].
    f_equal. apply Z.quot_div_nonneg; unfold e12; lia.
  - destruct (int_fits (p * i)) eqn:E; [|done]. apply int_fits_lt in E. lia.
Qed.

Lemma down_div a i : 0 <= a -> 0 < i -> down a i = a * e12 / i.
Proof. intros. unfold down. apply Z.quot_div_nonneg; unfold e12; lia. Qed.
Lemma up_div a i : 0 <= a -> 0 < i -> up a i = - ((- (a * e12)) / i).
Proof.
  intros. pose proof (up_bounds a i ltac:(lia) ltac:(lia)).
  assert (H2 : - up a i = (- (a * e12)) / i); [|lia].
  apply (Z.div_unique_pos _ _ _ (up a i * i - a * e12)); lia.
Qed.
Lemma present_div p i : 0 <= p -> 0 < i -> present p i = p * i / e12.
Proof. intros. unfold present. apply Z.quot_div_nonneg; unfold e12; nia. Qed.

From Verif Require Import Spec.
Lemma c01_down a i p : 0 <= a -> 0 < i -> principal_down a i = POk p ->
  p * i <= a * unit_index /\ (forall q, q * i <= a * unit_index -> q <= p).
Proof.
  intros Ha Hi Hp. apply principal_down_ok in Hp as [_ ->].
  pose proof (down_bounds a i Ha Hi). change unit_index with e12. split; [lia|]. intros q Hq. nia.
Qed.
Lemma c01_up a i p : 0 <= a -> 0 < i -> principal_up a i = POk p ->
  a * unit_index <= p * i /\ (forall q, a * unit_index <= q * i -> p <= q).
Proof.
  intros Ha Hi Hp. apply principal_up_ok in Hp as [_ ->].
  pose proof (up_bounds a i Ha Hi). change unit_index with e12. split; [lia|]. intros q Hq. nia.
Qed.
Lemma c01_differ a i p q : 0 <= a -> 0 < i ->
  principal_down a i = POk p -> principal_up a i = POk q -> p <= q <= p + 1.
Proof.
  intros Ha Hi Hp Hq. apply principal_down_ok in Hp as [_ ->]. apply principal_up_ok in Hq as [_ ->].
  by apply down_le_up.
Qed.
Lemma c01_back_down a i p b : 0 <= a -> 0 < i ->
  principal_down a i = POk p -> present_amount p i = POk b -> b <= a.
Proof.
  intros Ha Hi Hp Hb. apply principal_down_ok in Hp as [_ ->]. apply present_amount_ok in Hb as ->.
  pose proof (down_bounds a i Ha Hi). pose proof (down_nonneg a i Ha Hi).
  rewrite present_div by auto. apply Z.lt_succ_r. apply Z.div_lt_upper_bound; unfold e12 in *; lia.
Qed.
Lemma c01_back_up a i p b : 0 <= a -> 0 < i ->
  principal_up a i = POk p -> present_amount p i = POk b -> a <= b.
Proof.
  intros Ha Hi Hp Hb. apply principal_up_ok in Hp as [_ ->]. apply present_amount_ok in Hb as ->.
  pose proof (up_bounds a i Ha Hi). pose proof (up_nonneg a i Ha Hi).
  rewrite present_div by auto. apply Z.div_le_lower_bound; unfold e12 in *; lia.
Qed.
Lemma c01_mono a b i : 0 <= a <= b -> 0 < i ->
  (forall p q, principal_down a i = POk p -> principal_down b i = POk q -> p <= q) /\
  (forall p q, principal_up a i = POk p -> principal_up b i = POk q -> p <= q).
Proof.
  intros [Ha Hb] Hi. split; intros p q Hp Hq.
  - apply principal_down_ok in Hp as [_ ->]. apply principal_down_ok in Hq as [_ ->].
    rewrite !down_div by lia. apply Z.div_le_mono; unfold e12; lia.
  - apply principal_up_ok in Hp as [_ ->]. apply principal_up_ok in Hq as [_ ->].
    unfold up. rewrite !Z.quot_div_nonneg by (unfold e12; lia). apply Z.div_le_mono; unfold e12; lia.
Qed.
Lemma c01_range a i : 0 <= a -> 0 < i ->
  (a * unit_index < 2 ^ 256 -> exists p, principal_down a i = POk p) /\
  (2 ^ 256 <= a * unit_index -> principal_down a i = PPanic) /\
  (a * unit_index + i < 2 ^ 256 -> exists p, principal_up a i = POk p) /\
  (2 ^ 256 <= a * unit_index + i -> principal_up a i = PPanic) /\
  (a * i < 2 ^ 256 -> exists b, present_amount a i = POk b) /\
  (2 ^ 256 <= a * i -> present_amount a i = PPanic).
Proof.
  intros Ha Hi. change unit_index with e12.
  rewrite principal_down_eq, principal_up_eq, present_amount_eq by auto.
  repeat split; intros; case_decide; eauto; lia.
Qed.
