(** C01: conversions between amounts and principal (keeper/math.go). The present
    value of principal [p] at index [i] is the rational [p * i / 10^12]; it is
    compared with an amount [a] as [p * i] against [a * 10^12]. *)
From Verif Require Import Spec Concrete ArithP.

(** The rounded-down principal is the largest principal worth at most [a]. *)
Theorem C01_down_largest : forall a i p, 0 <= a -> 0 < i -> principal_down a i = POk p ->
  p * i <= a * unit_index /\ (forall q, q * i <= a * unit_index -> q <= p).
Proof. exact c01_down. Qed.
Print Assumptions C01_down_largest.
Example C01_down_largest_ex : principal_down 1000001 1100000000000 = POk 909091.
Proof. vm_compute. reflexivity. Qed.

(** The rounded-up principal is the smallest principal worth at least [a]. *)
Theorem C01_up_smallest : forall a i p, 0 <= a -> 0 < i -> principal_up a i = POk p ->
  a * unit_index <= p * i /\ (forall q, a * unit_index <= q * i -> p <= q).
Proof. exact c01_up. Qed.
Print Assumptions C01_up_smallest.
Example C01_up_smallest_ex : principal_up 1000001 1100000000000 = POk 909092.
Proof. vm_compute. reflexivity. Qed.

Theorem C01_differ_by_one : forall a i p q, 0 <= a -> 0 < i ->
  principal_down a i = POk p -> principal_up a i = POk q -> p <= q <= p + 1.
Proof. exact c01_differ. Qed.
Print Assumptions C01_differ_by_one.
Example C01_differ_by_one_ex :
  principal_down 3 7 = POk 428571428571 /\ principal_up 3 7 = POk 428571428572.
Proof. vm_compute. auto. Qed.

(** Down and back never yields more, up and back never less. *)
Theorem C01_down_and_back : forall a i p b, 0 <= a -> 0 < i ->
  principal_down a i = POk p -> present_amount p i = POk b -> b <= a.
Proof. exact c01_back_down. Qed.
Print Assumptions C01_down_and_back.
Example C01_down_and_back_ex :
  principal_down 7 1300000000000 = POk 5 /\ present_amount 5 1300000000000 = POk 6.
Proof. vm_compute. auto. Qed.
Theorem C01_up_and_back : forall a i p b, 0 <= a -> 0 < i ->
  principal_up a i = POk p -> present_amount p i = POk b -> a <= b.
Proof. exact c01_back_up. Qed.
Print Assumptions C01_up_and_back.
Example C01_up_and_back_ex :
  principal_up 8 1900000000000 = POk 5 /\ present_amount 5 1900000000000 = POk 9.
Proof. vm_compute. auto. Qed.

Theorem C01_monotone : forall a b i, 0 <= a <= b -> 0 < i ->
  (forall p q, principal_down a i = POk p -> principal_down b i = POk q -> p <= q) /\
  (forall p q, principal_up a i = POk p -> principal_up b i = POk q -> p <= q).
Proof. exact c01_mono. Qed.
Print Assumptions C01_monotone.
Example C01_monotone_ex : principal_up 8 1900000000000 = POk 5 /\ principal_up 11 1900000000000 = POk 6.
Proof. vm_compute. auto. Qed.

(** Either the exact result or an abort, decided by the 256-bit range. *)
Theorem C01_range : forall a i, 0 <= a -> 0 < i ->
  (a * unit_index < 2 ^ 256 -> exists p, principal_down a i = POk p) /\
  (2 ^ 256 <= a * unit_index -> principal_down a i = PPanic) /\
  (a * unit_index + i < 2 ^ 256 -> exists p, principal_up a i = POk p) /\
  (2 ^ 256 <= a * unit_index + i -> principal_up a i = PPanic) /\
  (a * i < 2 ^ 256 -> exists b, present_amount a i = POk b) /\
  (2 ^ 256 <= a * i -> present_amount a i = PPanic).
Proof. exact c01_range. Qed.
Print Assumptions C01_range.
Example C01_range_ex : principal_down (2 ^ 217) 1 = PPanic /\ exists p, principal_down (2 ^ 216) 1 = POk p.
Proof. vm_compute. eauto. Qed.
