(** Facts about the raw store. *)
From Verif Require Export Store.
From Verif Require Import SendP CodecP Spec UpdateP ExtP VaultsP TraceP.
From Coq Require Import Lia.

(** * The order of bytes *)
Lemma bytes_ltb_irrefl x : bytes_ltb x x = false.
Proof. induction x as [|a x IH]; [done|]. cbn. by rewrite Z.ltb_irrefl. Qed.
Lemma Z_of_byte_inj a b : Z_of_byte a = Z_of_byte b -> a = b.
Proof. intros H. rewrite <- (byte_of_Z_of_byte a), <- (byte_of_Z_of_byte b). by rewrite H. Qed.
Lemma bytes_ltb_cons a x b y : bytes_ltb (a :: x) (b :: y) = true <->
  Z_of_byte a < Z_of_byte b \/ a = b /\ bytes_ltb x y = true.
Proof.
  cbn. destruct (Z.ltb_spec (Z_of_byte a) (Z_of_byte b)); [naive_solver|].
  destruct (Z.ltb_spec (Z_of_byte b) (Z_of_byte a)).
  - split; [done|]. intros [?|[-> _]]; lia.
  - assert (a = b) as -> by (apply Z_of_byte_inj; lia). split; [auto|]. intros [?|[_ ?]]; [lia|done].
Qed.
Lemma bytes_ltb_cons_false a x b y : bytes_ltb (a :: x) (b :: y) = false <->
  Z_of_byte b < Z_of_byte a \/ a = b /\ bytes_ltb x y = false.
Proof.
  cbn. destruct (Z.ltb_spec (Z_of_byte a) (Z_of_byte b)).
  - split; [done|]. intros [?|[-> _]]; lia.
  - destruct (Z.ltb_spec (Z_of_byte b) (Z_of_byte a)); [naive_solver|].
    assert (a = b) as -> by (apply Z_of_byte_inj; lia). split; [auto|]. intros [?|[_ ?]]; [lia|done].
Qed.
Lemma bytes_le_trans x y z : bytes_ltb y x = false -> bytes_ltb z y = false -> bytes_ltb z x = false.
Proof.
  revert y z. induction x as [|a x IH]; intros y z H1 H2.
  - by destruct z.
  - destruct y as [|b y]; [done|]. destruct z as [|c z]; [done|]. rewrite bytes_ltb_cons_false in *.
    destruct H1 as [H1|[-> H1]], H2 as [H2|[-> H2]]; [left; lia|by left|by left|right]. split; [done|]. by apply (IH y).
Qed.
Lemma bytes_le_total x y : bytes_ltb x y = false \/ bytes_ltb y x = false.
Proof.
  revert y. induction x as [|a x IH]; intros y; [destruct y; [by left|by right]|]. destruct y as [|b y]; [by left|].
  rewrite !bytes_ltb_cons_false. destruct (Z.lt_trichotomy (Z_of_byte a) (Z_of_byte b)) as [H|[H%Z_of_byte_inj|H]]; [by right; left| |by left; left].
  subst. destruct (IH y); auto.
Qed.
Lemma bytes_le_antisym x y : bytes_ltb x y = false -> bytes_ltb y x = false -> x = y.
Proof.
  revert y. induction x as [|a x IH]; intros y H1 H2; [by destruct y|]. destruct y as [|b y]; [done|].
  rewrite bytes_ltb_cons_false in *. destruct H1 as [?|[-> H1]], H2 as [?|[E H2]]; subst; try lia. f_equal. by apply IH.
Qed.
Lemma bytes_lt_le x y : bytes_ltb x y = true -> bytes_ltb y x = false.
Proof.
  intros H. destruct (bytes_le_total y x) as [E|E]; [done|]. congruence.
Qed.
Global Instance bkey_le_trans {A} : Transitive (@bkey_le A).
Proof. intros x y z H1 H2. unfold bkey_le in *. by apply (bytes_le_trans _ y.1). Qed.
Global Instance bkey_le_total {A} : Total (@bkey_le A).
Proof. intros x y. unfold bkey_le. destruct (bytes_le_total x.1 y.1); auto. Qed.
Lemma bytes_ltb_app p x y : bytes_ltb (p ++ x) (p ++ y) = bytes_ltb x y.
Proof. induction p as [|a p IH]; [done|]. cbn. by rewrite Z.ltb_irrefl. Qed.
Lemma bytes_ltb_be x y : length x = length y -> bytes_ltb x y = (be_decode x <? be_decode y).
Proof.
  revert y. induction x as [|a x IH]; intros [|b y] Hl; try done.
  cbn [length] in Hl. injection Hl as Hl. rewrite !be_decode_cons, Hl. cbn [bytes_ltb]. rewrite (IH _ Hl).
  pose proof (be_decode_range x) as Hx. pose proof (be_decode_range y) as Hy. rewrite Hl in Hx.
  pose proof (Z_of_byte_range a). pose proof (Z_of_byte_range b). set (P := 256 ^ _) in *. assert (0 < P) by (unfold P; lia).
  destruct (Z.ltb_spec (Z_of_byte a) (Z_of_byte b)); [symmetry; apply Z.ltb_lt; nia|].
  destruct (Z.ltb_spec (Z_of_byte b) (Z_of_byte a)); [symmetry; apply Z.ltb_ge; nia|].
  assert (Z_of_byte a = Z_of_byte b) as -> by lia. destruct (Z.ltb_spec (be_decode x) (be_decode y)); symmetry; [apply Z.ltb_lt|apply Z.ltb_ge]; lia.
Qed.

(** * Ranges of a prefix *)
Lemma prefix_range p k : within p (prefix_end p) k = true <-> exists r, k = p ++ r.
Proof.
  unfold within. revert k. induction p as [|b q IH]; intros k.
  - cbn. split; [by exists k|]. intros _. by destruct k.
  - destruct k as [|a k].
    + cbn. split; [done|]. by intros [r Hr].
    + assert (E : (exists r, a :: k = (b :: q) ++ r) <-> a = b /\ exists r, k = q ++ r).
      { split; [intros [r [= -> ->]]; eauto|]. intros [-> [r ->]]. by exists r. }
      rewrite E. clear E. rewrite <- IH. clear IH. cbn [prefix_end].
      assert (Hlo : negb (bytes_ltb (a :: k) (b :: q)) = true <-> Z_of_byte b < Z_of_byte a \/ a = b /\ negb (bytes_ltb k q) = true).
      { rewrite !negb_true_iff. apply bytes_ltb_cons_false. }
      rewrite !andb_true_iff, Hlo. clear Hlo. pose proof (Z_of_byte_range a). destruct (prefix_end q) as [e|].
      * rewrite bytes_ltb_cons. split.
        -- intros [[?|[-> ?]] [?|[? ?]]]; subst; try lia; auto.
        -- intros [-> [? ?]]. auto.
      * pose proof (Z_of_byte_range b). destruct (Z.eqb_spec (Z_of_byte b) 255) as [E|E].
        -- split; [intros [[?|[-> ?]] _]; [lia|auto]|intros [-> [? _]]; auto].
        -- rewrite bytes_ltb_cons, Z_of_byte_of_Z, Z.mod_small by lia. split.
           ++ intros [[?|[-> ?]] [?|[? ?]]]; try lia; auto. by destruct k.
           ++ intros [-> [? _]]. split; [auto|]. left. lia.
Qed.

(** * Sorted lists are determined by their elements *)
Lemma sorted_unique {A} (R : A -> A -> Prop) (l1 l2 : list A) :
  (forall x y, x ∈ l1 -> y ∈ l1 -> R x y -> R y x -> x = y) ->
  StronglySorted R l1 -> StronglySorted R l2 -> Permutation l1 l2 -> l1 = l2.
Proof.
  revert l2. induction l1 as [|x l1 IH]; intros l2 HA H1 H2 HP.
  - by apply Permutation_nil in HP.
  - destruct l2 as [|y l2]; [by apply Permutation_sym, Permutation_nil in HP|].
    apply StronglySorted_inv in H1 as [H1 F1]. apply StronglySorted_inv in H2 as [H2 F2].
    assert (x = y) as ->.
    { assert (Hy : y ∈ x :: l1) by (rewrite HP; by left). assert (Hx : x ∈ y :: l2) by (rewrite <- HP; by left).
      apply elem_of_cons in Hy as [->|Hy]; [done|]. apply elem_of_cons in Hx as [->|Hx]; [done|].
      rewrite Forall_forall in F1, F2. apply HA; [by left|by right|by apply F1|by apply F2]. }
    f_equal. apply IH; [|done|done|by apply Permutation_cons_inv in HP]. intros a b Ha Hb. apply HA; by right.
Qed.
Lemma scan_is {A} (lo : bytes) (hi : option bytes) (m : gmap bytes A) (t : list (bytes * A)) :
  StronglySorted bkey_le t -> NoDup t ->
  (forall (b : bytes) (v : A), (b, v) ∈ t <-> m !! b = Some v /\ within lo hi b = true) ->
  scan lo hi m = t.
Proof.
  intros Hs Hn He. unfold scan. apply (sorted_unique bkey_le).
  - intros [b v] [b' v'] Hx Hy H1 H2. rewrite merge_sort_Permutation in Hx, Hy.
    apply elem_of_list_filter in Hx as [_ Hx%elem_of_map_to_list], Hy as [_ Hy%elem_of_map_to_list].
    assert (b = b') as -> by (apply bytes_le_antisym; [exact H2|exact H1]). rewrite Hx in Hy. by injection Hy as ->.
  - apply StronglySorted_merge_sort; apply _.
  - done.
  - rewrite merge_sort_Permutation. apply NoDup_Permutation; [apply NoDup_filter, NoDup_map_to_list|done|].
    intros [b v]. rewrite elem_of_list_filter, elem_of_map_to_list, He. cbn. tauto.
Qed.
Lemma elem_scan {A} (lo : bytes) (hi : option bytes) (m : gmap bytes A) (b : bytes) (v : A) : (b, v) ∈ scan lo hi m <-> m !! b = Some v /\ within lo hi b = true.
Proof. unfold scan. rewrite merge_sort_Permutation, elem_of_list_filter, elem_of_map_to_list. cbn. tauto. Qed.

(** * Integers as keys *)
Lemma lxor_128 b : Z.lxor (Z_of_byte b) 128 = (Z_of_byte b + 128) mod 256.
Proof. destruct b; reflexivity. Qed.
Lemma flip_be n z : flip_sign (be_encode (S n) z) = be_encode (S n) (z + 128 * 256 ^ Z.of_nat n).
Proof.
  cbn [be_encode flip_sign]. f_equal.
  - apply Z_of_byte_inj. rewrite lxor_128, !Z_of_byte_of_Z, Z.mod_mod by lia. rewrite Z.div_add by lia.
    by rewrite Zplus_mod_idemp_l.
  - rewrite <- (be_encode_mod n z), <- (be_encode_mod n (z + _)). by rewrite Z.mod_add by lia.
Qed.
Lemma int32_key_be z : int32_key z = be_encode 4 (z + 2 ^ 31).
Proof. unfold int32_key. rewrite (flip_be 3). done. Qed.
Lemma int64_key_be z : int64_key z = be_encode 8 (z + 2 ^ 63).
Proof. unfold int64_key. rewrite (flip_be 7). done. Qed.
Lemma int32_key_length z : length (int32_key z) = 4%nat.
Proof. rewrite int32_key_be. apply be_encode_length. Qed.
Lemma int64_key_length z : length (int64_key z) = 8%nat.
Proof. rewrite int64_key_be. apply be_encode_length. Qed.
Lemma int32_key_inj x y : fits_i32 x -> fits_i32 y -> int32_key x = int32_key y -> x = y.
Proof.
  unfold fits_i32. rewrite !int32_key_be. intros Hx Hy H. apply be_encode_inj in H; [lia|..]; change (256 ^ Z.of_nat 4) with (2 ^ 32); lia.
Qed.
Lemma int64_key_inj x y : fits_i64 x -> fits_i64 y -> int64_key x = int64_key y -> x = y.
Proof.
  unfold fits_i64. rewrite !int64_key_be. intros Hx Hy H. apply be_encode_inj in H; [lia|..]; change (256 ^ Z.of_nat 8) with (2 ^ 64); lia.
Qed.
Lemma uint16_key_inj x y : fits_u16 x -> fits_u16 y -> uint16_key x = uint16_key y -> x = y.
Proof.
  unfold fits_u16, uint16_key. intros Hx Hy H. apply be_encode_inj in H; [lia|..]; change (256 ^ Z.of_nat 2) with (2 ^ 16); lia.
Qed.
Lemma int64_key_ltb x y : fits_i64 x -> fits_i64 y -> bytes_ltb (int64_key x) (int64_key y) = (x <? y).
Proof.
  unfold fits_i64. intros Hx Hy. rewrite bytes_ltb_be by (by rewrite !int64_key_length).
  rewrite !int64_key_be, !be_decode_encode_small by (change (256 ^ Z.of_nat 8) with (2 ^ 64); lia).
  destruct (Z.ltb_spec x y); [apply Z.ltb_lt|apply Z.ltb_ge]; lia.
Qed.
Lemma sized_key_inj x y r r' : blen x <= 255 -> blen y <= 255 -> sized_key x ++ r = sized_key y ++ r' -> x = y /\ r = r'.
Proof.
  unfold blen. intros Hx Hy H. unfold sized_key in H. cbn [app] in H. injection H as Hl H.
  apply (f_equal Z_of_byte) in Hl. rewrite !Z_of_byte_of_Z, !Z.mod_small in Hl by lia. apply app_inj_1 in H; [done|lia].
Qed.
Lemma bytes_of_string_inj a b : bytes_of_string a = bytes_of_string b -> a = b.
Proof.
  unfold bytes_of_string. intros H. rewrite <- (String.string_of_list_byte_of_string a), <- (String.string_of_list_byte_of_string b). by rewrite H.
Qed.

Lemma bytes_ltb_below x y r : length x = length y -> r <> [] -> bytes_ltb x (y ++ r) = negb (bytes_ltb y x).
Proof.
  intros Hl Hr. revert y Hl. induction x as [|a x IH]; intros [|b y] Hl; try done.
  - cbn. by destruct r.
  - cbn. destruct (Z.ltb_spec (Z_of_byte a) (Z_of_byte b)), (Z.ltb_spec (Z_of_byte b) (Z_of_byte a)); try done; try lia.
    apply IH. by injection Hl.
Qed.
Lemma bytes_le_string a b : string_le a b -> bytes_ltb (bytes_of_string b) (bytes_of_string a) = false.
Proof.
  revert b. induction a as [|x a IH]; intros b H; [by destruct (bytes_of_string b)|].
  destruct b as [|y b]; [done|]. apply string_le_cons in H.
  change (bytes_of_string (String x a)) with (Ascii.byte_of_ascii x :: bytes_of_string a).
  change (bytes_of_string (String y b)) with (Ascii.byte_of_ascii y :: bytes_of_string b).
  rewrite bytes_ltb_cons_false. unfold Z_of_byte.
  assert (E : forall z, Coq.Strings.Byte.to_N (Ascii.byte_of_ascii z) = Ascii.N_of_ascii z).
  { intros z. rewrite <- (Ascii.ascii_of_byte_of_ascii z) at 2. by destruct (Ascii.byte_of_ascii z). }
  rewrite !E. destruct H as [H|[-> H]]; [left; lia|right]. split; [done|by apply IH].
Qed.

Arguments int32_key : simpl never. Arguments int64_key : simpl never. Arguments uint16_key : simpl never.
Arguments sized_key : simpl never. Arguments prefix_of : simpl never.

(** * Collections are apart *)
Lemma starts_with_app p r : starts_with p (p ++ r) = true.
Proof. induction p as [|a p IH]; [done|]. cbn. by rewrite bool_decide_true. Qed.
Lemma starts_with_spec p k : starts_with p k = true <-> exists r, k = p ++ r.
Proof.
  split; [|intros [r ->]; apply starts_with_app]. revert k. induction p as [|a p IH]; intros k; [by exists k|]. destruct k as [|b k]; [done|].
  cbn. rewrite andb_true_iff, bool_decide_eq_true. intros [-> [r ->]%IH]. by exists r.
Qed.
Lemma apart_app p q r r' : starts_with p q = false -> starts_with q p = false -> p ++ r <> q ++ r'.
Proof.
  revert q. induction p as [|a p IH]; intros [|b q] H1 H2; try done. cbn in *. intros [= -> H].
  rewrite bool_decide_true in H1, H2 by done. cbn in *. by apply (IH q).
Qed.
Lemma build_apart l n p n' q : build l = true -> (n, p) ∈ l -> (n', q) ∈ l -> n <> n' -> starts_with p q = false /\ starts_with q p = false.
Proof.
  induction l as [|[m o] l IH]; intros Hb H1 H2 Hn; [by apply elem_of_nil in H1|]. cbn in Hb.
  apply andb_true_iff in Hb as [[_ Hf]%andb_true_iff Hb]. rewrite forallb_forall in Hf.
  apply elem_of_cons in H1, H2. destruct H1 as [[= -> ->]|H1], H2 as [[= -> ->]|H2]; [done|..|by apply IH].
  - apply elem_of_list_In, Hf in H2. cbn in H2. rewrite !andb_true_iff, !negb_true_iff in H2. tauto.
  - apply elem_of_list_In, Hf in H1. cbn in H1. rewrite !andb_true_iff, !negb_true_iff in H1. tauto.
Qed.
Lemma app_comparable {A} (p q r r' : list A) : p ++ r = q ++ r' -> (exists x, q = p ++ x) \/ (exists x, p = q ++ x).
Proof.
  revert q. induction p as [|a p IH]; intros [|b q] H; [left; by exists []|left; by exists (b :: q)|right; by exists (a :: p)|].
  cbn in H. injection H as -> H. destruct (IH _ H) as [[x ->]|[x ->]]; [left|right]; by exists x.
Qed.
(** No key of one collection of a schema that builds is a key of another. *)
Lemma build_keys t n p n' p' r r' : build t = true -> (n, p) ∈ t -> (n', p') ∈ t -> n <> n' -> p ++ r <> p' ++ r'.
Proof.
  intros Hb H1 H2 Hn H. destruct (build_apart _ _ _ _ _ Hb H1 H2 Hn) as [A1 A2].
  destruct (app_comparable _ _ _ _ H) as [[x ->]|[x ->]]; by rewrite starts_with_app in *.
Qed.
Lemma schema_builds : build schema = true.
Proof. vm_compute. reflexivity. Qed.
Lemma prefixes_apart k k' : k <> k' -> starts_with (prefix_of k) (prefix_of k') = false.
Proof. intros H. destruct k, k'; first [by destruct H|reflexivity]. Qed.
Lemma prefix_split k k' r r' : prefix_of k ++ r = prefix_of k' ++ r' -> k = k' /\ r = r'.
Proof.
  intros H. destruct (decide (k = k')) as [->|Hn].
  - by apply app_inv_head in H.
  - exfalso. revert H. apply apart_app; apply prefixes_apart; congruence.
Qed.

(** * Keys determine items *)
Lemma raw_key_inj c k1 k2 : fits c k1 -> fits c k2 -> told_apart c k1 k2 -> raw_key c k1 = raw_key c k2 -> k1 = k2.
Proof.
  intros F1 F2 T H. apply prefix_split in H as [HC H].
  destruct k1, k2; try discriminate HC; clear HC; try done; cbn in F1, F2, H.
  - f_equal. by apply T.
  - apply app_inj_1 in H as [Hp Hi]; [|by rewrite !int32_key_length]. apply int32_key_inj in Hp; [|done..]. apply bytes_of_string_inj in Hi. by subst.
  - apply app_inj_1 in H as [Hp Hi]; [|by rewrite !int32_key_length]. apply int32_key_inj in Hp; [|done..]. apply bytes_of_string_inj in Hi. by subst.
  - apply app_inj_1 in H as [Hp Hi]; [|by rewrite !int32_key_length]. apply int32_key_inj in Hp; [|done..]. apply bytes_of_string_inj in Hi. by subst.
  - apply uint16_key_inj in H; [|done..]. by subst.
  - apply app_inj_1 in H as [Hp ->]; [|unfold uint16_key; by rewrite !be_encode_length]. apply uint16_key_inj in Hp; [|done..]. by subst.
  - destruct F1 as (L1 & V1 & T1), F2 as (L2 & V2 & T2). apply sized_key_inj in H as [Ha H]; [|done..].
    apply app_inj_1 in H as [Hv Ht]; [|by rewrite !int32_key_length]. apply int32_key_inj in Hv; [|done..]. apply int64_key_inj in Ht; [|done..].
    f_equal; [by apply T|done|done].
  - destruct F1 as (L1 & V1 & T1), F2 as (L2 & V2 & T2). apply sized_key_inj in H as [Ha H]; [|done..].
    apply sized_key_inj in H as [_ H]; [|done..].
    apply app_inj_1 in H as [Hv Ht]; [|by rewrite !int32_key_length]. apply int32_key_inj in Hv; [|done..]. apply int64_key_inj in Ht; [|done..].
    f_equal; [by apply T|done|done].
  - destruct F1 as (L1 & V1 & T1), F2 as (L2 & V2 & T2). rewrite <- !app_assoc in H. apply sized_key_inj in H as [Ha H]; [|done..].
    apply app_inj_1 in H as [_ H]; [|by rewrite !int32_key_length]. apply sized_key_inj in H as [_ H]; [|done..].
    apply app_inj_1 in H as [Hv Ht]; [|by rewrite !int32_key_length]. apply int32_key_inj in Hv; [|done..]. apply int64_key_inj in Ht; [|done..].
    f_equal; [by apply T|done|done].
  - apply int64_key_inj in H; [|done..]. by subst.
Qed.

(** * The store holds exactly the contents *)
Lemma elem_keyed {K A} (f : K -> item) (l : list (K * A)) k : k ∈ keyed f l <-> exists x y, (x, y) ∈ l /\ k = f x.
Proof.
  unfold keyed. rewrite elem_of_list_fmap. split.
  - intros ([x y] & -> & H). by exists x, y.
  - intros (x & y & H & ->). by exists (x, y).
Qed.
Lemma elem_items s k : k ∈ items s <-> content s k <> None.
Proof.
  unfold items. rewrite !elem_of_app, !elem_keyed. split.
  - intros H. destruct H as [H|H].
    { unfold single_items in H. repeat (apply elem_of_cons in H as [->|H]; [done|]). by apply elem_of_nil in H. }
    destruct H as [H|[H|[H|[H|[H|[H|[H|[H|[H|H]]]]]]]]]; destruct H as (x & y & Hin & ->); apply elem_of_map_to_list in Hin.
    1: cbn; by rewrite Hin.
    1-3: destruct x as [q id]; cbn; by rewrite Hin.
    1: cbn; by rewrite Hin.
    1: destruct x as [ch tok]; cbn; by rewrite Hin.
    1-3: destruct x as [[a v] t]; cbn; by rewrite Hin.
    cbn. by rewrite Hin.
  - intros H. destruct k; cbn in H; try (left; unfold single_items; rewrite !elem_of_cons; tauto); right.
    + destruct (d_principal (st_dollar s) !! a) eqn:E; [|done]. left. eexists _, _. split; [by apply elem_of_map_to_list|done].
    + destruct (d_ext_yield (st_dollar s) !! (p, id)) eqn:E; [|done]. right; left. exists (p, id). eexists. split; [by apply elem_of_map_to_list|done].
    + destruct (d_recipients (st_dollar s) !! (p, id)) eqn:E; [|done]. do 2 right; left. exists (p, id). eexists. split; [by apply elem_of_map_to_list|done].
    + destruct (d_retry (st_dollar s) !! (p, id)) eqn:E; [|done]. do 3 right; left. exists (p, id). eexists. split; [by apply elem_of_map_to_list|done].
    + destruct (p_peers (st_portal s) !! chain) eqn:E; [|done]. do 4 right; left. eexists _, _. split; [by apply elem_of_map_to_list|done].
    + destruct (p_paths (st_portal s) !! (chain, token)) eqn:E; [|done]. do 5 right; left. exists (chain, token). eexists. split; [by apply elem_of_map_to_list|done].
    + destruct (v_positions (st_vaults s) !! (a, v, t)) eqn:E; [|done]. do 6 right; left. exists (a, v, t). eexists. split; [by apply elem_of_map_to_list|done].
    + destruct (v_positions (st_vaults s) !! (a, v, t)) eqn:E; [|done]. do 7 right; left. exists (a, v, t). eexists. split; [by apply elem_of_map_to_list|done].
    + destruct (v_positions (st_vaults s) !! (a, v, t)) eqn:E; [|done]. do 8 right; left. exists (a, v, t). eexists. split; [by apply elem_of_map_to_list|done].
    + destruct (v_rewards (st_vaults s) !! i) eqn:E; [|done]. do 9 right. eexists _, _. split; [by apply elem_of_map_to_list|done].
Qed.
Lemma store_lookup c s b v : storable c s ->
  store c s !! b = Some v <-> exists k, content s k = Some v /\ raw_key c k = b.
Proof.
  intros [HF HT]. unfold store. set (l := omap _ _).
  assert (Hl : forall b v, (b, v) ∈ l <-> exists k, content s k = Some v /\ raw_key c k = b).
  { intros b' v'. unfold l. rewrite elem_of_list_omap. split.
    - intros (k & _ & H). destruct (content s k) as [w|] eqn:E; [|done]. cbn in H. injection H as <- <-. eauto.
    - intros (k & Hk & <-). exists k. rewrite elem_items, Hk. done. }
  rewrite <- Hl. split; [apply elem_of_list_to_map_2|]. intros H. apply elem_of_list_to_map_1'; [|done].
  intros w Hw. apply Hl in H as (k & Hk & <-), Hw as (k' & Hk' & E).
  apply raw_key_inj in E; [|apply HF; congruence..|apply HT; congruence]. subst. congruence.
Qed.
Lemma store_at c s k : storable c s -> content s k <> None -> store c s !! raw_key c k = content s k.
Proof. intros HS Hk. destruct (content s k) as [v|] eqn:E; [|done]. apply store_lookup; eauto. Qed.

(** * Walks *)
Lemma raw_prefix c k col p : (exists r, raw_key c k = (prefix_of col ++ p) ++ r) <-> collection_of k = col /\ exists r, inner_key c k = p ++ r.
Proof.
  split.
  - intros [r H]. rewrite <- app_assoc in H. apply prefix_split in H as [<- ->]. eauto.
  - intros [<- [r H]]. exists r. unfold raw_key. by rewrite H, app_assoc.
Qed.
Lemma elem_walk_prefix c s col p b v : storable c s ->
  (b, v) ∈ walk_prefix col p (store c s) <->
  exists k, collection_of k = col /\ (exists r, inner_key c k = p ++ r) /\ content s k = Some v /\ raw_key c k = b.
Proof.
  intros HS. unfold walk_prefix. rewrite elem_scan, store_lookup, prefix_range by done. split.
  - intros [(k & Hk & <-) H]. apply raw_prefix in H as [<- H]. by exists k.
  - intros (k & <- & H & Hk & <-). split; [by exists k|]. by apply raw_prefix.
Qed.
Lemma elem_walk c s col b v : storable c s ->
  (b, v) ∈ walk col (store c s) <-> exists k, collection_of k = col /\ content s k = Some v /\ raw_key c k = b.
Proof.
  intros HS. assert (E : walk col (store c s) = walk_prefix col [] (store c s)) by (unfold walk, walk_prefix; by rewrite app_nil_r).
  rewrite E, elem_walk_prefix by done. split; [naive_solver|]. intros (k & ? & ? & ?). exists k. eauto.
Qed.
Lemma walk_nodup (lo : bytes) (hi : option bytes) (m : gmap bytes value) : NoDup (scan lo hi m).*1.
Proof.
  unfold scan. rewrite merge_sort_Permutation. assert (H := NoDup_fst_map_to_list m). revert H. generalize (map_to_list m). intros l.
  induction l as [|[b v] l IH]; intros H; [constructor|]. cbn in H. apply NoDup_cons in H as [H1 H2]. rewrite filter_cons. case_decide; [|auto].
  cbn. apply NoDup_cons. split; [|auto]. intros (y & Hy & Hin)%elem_of_list_fmap. apply elem_of_list_filter in Hin as [_ Hin].
  apply H1, elem_of_list_fmap. eauto.
Qed.
Lemma sorted_fmap {A B} (R : A -> A -> Prop) (R' : B -> B -> Prop) (f : A -> B) l :
  (forall x y, x ∈ l -> y ∈ l -> R x y -> R' (f x) (f y)) -> StronglySorted R l -> StronglySorted R' (f <$> l).
Proof.
  induction l as [|x l IH]; intros H Hs; [constructor|]. apply StronglySorted_inv in Hs as [Hs Hf]. cbn. constructor.
  - apply IH; [|done]. intros a b Ha Hb. apply H; by right.
  - rewrite Forall_fmap, Forall_forall in *. intros y Hy. apply H; [by left|by right|by apply Hf].
Qed.
Lemma nodup_fst {A B} (l : list (A * B)) : NoDup l.*1 -> NoDup l.
Proof. apply NoDup_fmap_1. Qed.

Lemma positions_walked c s a v : storable c s -> addressable c s a -> fits_i32 v ->
  walk_prefix CByProviderAndVault (sized_key (c_raw c a) ++ int32_key v) (store c s) =
  (fun tp => (raw_key c (KByProviderAndVault a v tp.1), VNone)) <$> position_entries s a v.
Proof.
  intros HS [HL HA] Hv.
  assert (Hfit : forall tp, tp ∈ position_entries s a v -> fits_i64 tp.1).
  { intros [t p] H%elem_entries. assert (Hc : content s (KPosition a v t) <> None) by (cbn; by rewrite H). by apply (proj1 HS) in Hc as (_ & _ & ?). }
  assert (E : forall t, raw_key c (KByProviderAndVault a v t) = (prefix_of CByProviderAndVault ++ (sized_key (c_raw c a) ++ int32_key v) ++ sized_key (c_raw c a) ++ int32_key v) ++ int64_key t).
  { intros t. unfold raw_key. cbn [collection_of inner_key]. unfold position_key. by rewrite <- !app_assoc. }
  unfold walk_prefix. apply scan_is.
  - apply (sorted_fmap zkey_le); [|apply entries_sorted]. intros x y Hx Hy H. unfold bkey_le, zkey_le in *. cbn [fst]. rewrite !E, bytes_ltb_app.
    rewrite int64_key_ltb by auto. apply Z.ltb_ge. exact H.
  - apply NoDup_fmap_2_strong; [|apply nodup_fst, entries_nodup]. intros [t p] [t' p'] Hx Hy H. apply (f_equal fst) in H. cbn [fst] in H. rewrite !E in H. apply app_inv_head, int64_key_inj in H; [|by apply (Hfit _ Hx)|by apply (Hfit _ Hy)].
    subst t'. apply elem_entries in Hx, Hy. congruence.
  - intros b w. fold (walk_prefix CByProviderAndVault (sized_key (c_raw c a) ++ int32_key v) (store c s)).
    assert (Hw := elem_walk_prefix c s CByProviderAndVault (sized_key (c_raw c a) ++ int32_key v) b w HS).
    unfold walk_prefix in Hw. rewrite elem_scan in Hw. rewrite Hw. clear Hw. rewrite elem_of_list_fmap. split.
    + intros ([t p] & [= -> ->] & H%elem_entries). exists (KByProviderAndVault a v t). cbn. rewrite H. repeat split. eexists. reflexivity.
    + intros (k & Hk & [r Hr] & Hcon & <-). destruct k as [ |  |  |  |  |  |  |  |  |  |  |  |  |  |  |  |  | a' v' t |  |  | ]; try discriminate Hk.
      assert (Hne : content s (KByProviderAndVault a' v' t) <> None) by (by rewrite Hcon).
      destruct (proj1 HS _ Hne) as (L' & V' & T'). cbn in Hr. rewrite <- !app_assoc in Hr. apply sized_key_inj in Hr as [Ha Hr]; [|done..].
      assert (a' = a) as -> by (eapply HA; [exact Hne|done|done]).
      apply app_inj_1 in Hr as [Hr _]; [|by rewrite !int32_key_length]. apply int32_key_inj in Hr as ->; [|done..].
      cbn in Hcon. destruct (v_positions (st_vaults s) !! (a, v, t)) as [p|] eqn:Ep; [|done]. injection Hcon as <-.
      exists (t, p). split; [done|]. by apply elem_entries.
Qed.
Lemma stored_position c s a v t p : storable c s -> (t, p) ∈ position_entries s a v ->
  store c s !! raw_key c (KPosition a v t) = Some (VPosition p).
Proof.
  intros HS H%elem_entries. assert (E : content s (KPosition a v t) = Some (VPosition p)) by (cbn; by rewrite H).
  rewrite store_at; [exact E|done|by rewrite E].
Qed.

Lemma recipients_walked c s p : storable c s -> fits_i32 p ->
  walk_prefix CRecipients (int32_key p) (store c s) =
  (fun ir => (raw_key c (KRecipient p ir.1), VString ir.2)) <$> recipients_of s p.
Proof.
  intros HS Hp.
  assert (E : forall id, raw_key c (KRecipient p id) = (prefix_of CRecipients ++ int32_key p) ++ bytes_of_string id).
  { intros id. unfold raw_key. cbn [collection_of inner_key]. unfold named_key. by rewrite <- !app_assoc. }
  unfold walk_prefix. apply scan_is.
  - apply (sorted_fmap skey_le).
    + intros x y Hx Hy H. unfold bkey_le, skey_le in *. cbn [fst]. rewrite !E, bytes_ltb_app. by apply bytes_le_string.
    + apply StronglySorted_merge_sort; [intros x y z; unfold skey_le; apply string_le_trans|intros x y; apply string_le_total].
  - apply NoDup_fmap_2_strong; [|apply nodup_fst, nodup_recipients]. intros [i r] [i' r'] Hx Hy H. apply (f_equal fst) in H. cbn [fst] in H. rewrite !E in H.
    apply app_inv_head, bytes_of_string_inj in H as ->. apply elem_recipients in Hx, Hy. congruence.
  - intros b w. assert (Hw := elem_walk_prefix c s CRecipients (int32_key p) b w HS).
    unfold walk_prefix in Hw. rewrite elem_scan in Hw. rewrite Hw. clear Hw. rewrite elem_of_list_fmap. split.
    + intros ([id r] & [= -> ->] & H%elem_recipients). exists (KRecipient p id). cbn. rewrite H. repeat split. eexists. reflexivity.
    + intros (k & Hk & [r Hr] & Hcon & <-). destruct k as [ |  |  |  |  | q id |  |  |  |  |  |  |  |  |  |  |  |  |  |  | ]; try discriminate Hk.
      assert (Hne : content s (KRecipient q id) <> None) by (by rewrite Hcon). assert (Hq := proj1 HS _ Hne). cbn in Hq, Hr.
      apply app_inj_1 in Hr as [Hr _]; [|by rewrite !int32_key_length]. apply int32_key_inj in Hr as ->; [|done..].
      cbn in Hcon. destruct (d_recipients (st_dollar s) !! (p, id)) as [rc|] eqn:Ep; [|done]. injection Hcon as <-.
      exists (id, rc). split; [done|]. by apply elem_recipients.
Qed.

Lemma elem_rewards_above s i j r : (j, r) ∈ rewards_above s i <-> v_rewards (st_vaults s) !! j = Some r /\ i < j.
Proof. unfold rewards_above. rewrite merge_sort_Permutation, elem_of_list_filter, elem_of_map_to_list. cbn. tauto. Qed.
Lemma rewards_walked c s i : storable c s -> fits_i64 i ->
  walk_after CRewards (int64_key i) (store c s) = (fun ir => (raw_key c (KReward ir.1), VReward ir.2)) <$> rewards_above s i.
Proof.
  intros HS Hi.
  assert (Hfit : forall j r, (j, r) ∈ rewards_above s i -> fits_i64 j).
  { intros j r [H _]%elem_rewards_above. apply (proj1 HS (KReward j)). cbn. by rewrite H. }
  assert (Hge : forall k, collection_of k = CRewards -> content s k <> None ->
    within (prefix_of CRewards ++ int64_key i ++ [Coq.Init.Byte.x00]) (prefix_end (prefix_of CRewards)) (raw_key c k) = true <-> exists j, k = KReward j /\ i < j).
  { intros k Hk Hne. destruct k as [ |  |  |  |  |  |  |  |  |  |  |  |  |  |  |  |  |  |  | j | ]; try discriminate Hk. assert (Hj := proj1 HS _ Hne). cbn in Hj.
    assert (W : within (prefix_of CRewards) (prefix_end (prefix_of CRewards)) (raw_key c (KReward j)) = true) by (apply prefix_range; eexists; reflexivity).
    unfold within in *. apply andb_true_iff in W as [_ W]. rewrite andb_true_iff, negb_true_iff. unfold raw_key at 1. cbn [collection_of inner_key].
    rewrite bytes_ltb_app, bytes_ltb_below by (done || by rewrite !int64_key_length). rewrite int64_key_ltb, negb_false_iff, Z.ltb_lt by done.
    split; [intros [? _]; eauto|]. intros (j' & [= <-] & ?). done. }
  unfold walk_after. apply scan_is.
  - apply (sorted_fmap zkey_le).
    + intros [j r] [j' r'] Hx Hy H. unfold bkey_le, zkey_le in *. cbn [fst] in *. unfold raw_key. cbn [collection_of inner_key]. rewrite bytes_ltb_app.
      rewrite int64_key_ltb by (by eapply Hfit). apply Z.ltb_ge. exact H.
    + apply StronglySorted_merge_sort; [intros x y z; unfold zkey_le; lia|intros x y; unfold zkey_le; lia].
  - apply NoDup_fmap_2_strong.
    + intros [j r] [j' r'] Hx Hy H. apply (f_equal fst) in H. cbn [fst] in H. apply app_inv_head, int64_key_inj in H; [|by eapply Hfit..].
      subst. apply elem_rewards_above in Hx as [Hx _], Hy as [Hy _]. congruence.
    + unfold rewards_above. rewrite merge_sort_Permutation. apply NoDup_filter, NoDup_map_to_list.
  - intros b w. rewrite store_lookup, elem_of_list_fmap by done. split.
    + intros ([j r] & [= -> ->] & [H1 H2]%elem_rewards_above). split; [exists (KReward j); cbn; by rewrite H1|].
      apply Hge; [done|cbn; by rewrite H1|]. eauto.
    + intros [(k & Hk & <-) W].
      assert (HC : collection_of k = CRewards).
      { assert (W' : within (prefix_of CRewards) (prefix_end (prefix_of CRewards)) (raw_key c k) = true).
        { unfold within in *. apply andb_true_iff in W as [W1 W2]. rewrite W2, andb_true_r. apply negb_true_iff in W1. apply negb_true_iff.
          apply (bytes_le_trans _ _ _) with (2 := W1). rewrite <- (app_nil_r (prefix_of CRewards)) at 2. rewrite bytes_ltb_app.
          by destruct (int64_key i ++ [Coq.Init.Byte.x00]). }
        apply prefix_range in W' as [r Hr]. unfold raw_key in Hr. by apply prefix_split in Hr as [-> _]. }
      apply Hge in W as (j & -> & Hj); [|done|by rewrite Hk]. cbn in Hk.
      destruct (v_rewards (st_vaults s) !! j) as [r|] eqn:Er; [|done]. injection Hk as <-. exists (j, r). split; [done|]. by apply elem_rewards_above.
Qed.

(** The positions of an account in both vaults. *)
Lemma provider_walked c s a b w : storable c s -> addressable c s a ->
  (b, w) ∈ walk_prefix CByProvider (sized_key (c_raw c a)) (store c s) <->
  w = VNone /\ exists v t p, v_positions (st_vaults s) !! (a, v, t) = Some p /\ b = raw_key c (KByProvider a v t).
Proof.
  intros HS [HL HA]. rewrite elem_walk_prefix by done. split.
  - intros (k & Hk & [r Hr] & Hcon & <-). destruct k as [ |  |  |  |  |  |  |  |  |  |  |  |  |  |  |  | a' v t |  |  |  | ]; try discriminate Hk.
    assert (Hne : content s (KByProvider a' v t) <> None) by (by rewrite Hcon). destruct (proj1 HS _ Hne) as (L' & _ & _).
    cbn in Hr. apply sized_key_inj in Hr as [Ha _]; [|done..]. assert (a' = a) as -> by (eapply HA; [exact Hne|done|done]).
    cbn in Hcon. destruct (v_positions (st_vaults s) !! (a, v, t)) as [p|] eqn:E; [|done]. injection Hcon as <-. split; [done|]. eauto 6.
  - intros (-> & v & t & p & H & ->). exists (KByProvider a v t). cbn. rewrite H. repeat split. eexists. reflexivity.
Qed.

(** Equal stores hold equal contents. *)
Lemma store_content c s s' : storable c s -> storable c s' ->
  (forall k k', content s k <> None -> content s' k' <> None -> told_apart c k k') ->
  store c s = store c s' -> forall k, content s k = content s' k.
Proof.
  intros H1 H2 HT HE.
  assert (G : forall u u', storable c u -> storable c u' -> (forall k k', content u k <> None -> content u' k' <> None -> told_apart c k k') ->
    store c u = store c u' -> forall k v, content u k = Some v -> content u' k = Some v).
  { intros u u' U1 U2 T E k v Hk. assert (Hs : store c u !! raw_key c k = Some v) by (apply store_lookup; eauto).
    rewrite E in Hs. apply store_lookup in Hs as (k' & Hk' & Hr); [|done].
    apply raw_key_inj in Hr as ->; [done|apply (proj1 U2); congruence|apply (proj1 U1); congruence|].
    intros a b Ha Hb Hab. symmetry. revert Hab. assert (T' := T k k'). unfold told_apart in T'. intros Hab. apply (T' ltac:(congruence) ltac:(congruence) b a); congruence. }
  intros k. destruct (content s k) as [v|] eqn:E; [symmetry; by apply (G s s')|].
  destruct (content s' k) as [v|] eqn:E'; [|done]. apply (G s' s) in E'; [congruence|done|done| |done].
  intros k1 k2 N1 N2 a b Ha Hb Hab. symmetry. apply (HT k2 k1 N2 N1 b a); congruence.
Qed.

Lemma addressable_stored c s k a : storable c s -> address_in k = Some a -> content s k <> None ->
  (match k with KPrincipal _ => Z.of_nat (length (c_raw c a)) <= 255 | _ => True end) -> addressable c s a.
Proof.
  intros HS Ha Hk Hl. split.
  - assert (F := proj1 HS k Hk). destruct k; try discriminate Ha; injection Ha as ->; [done|apply F..].
  - intros k' b Hk' Hb H. by apply (proj2 HS k' k Hk' Hk b a).
Qed.

(** * Deciding storability of a concrete state *)
Definition fitsb (c : config) (k : item) : bool :=
  let u16 z := (0 <=? z) && (z <? 2 ^ 16) in
  let i32 z := (- 2 ^ 31 <=? z) && (z <? 2 ^ 31) in
  let i64 z := (- 2 ^ 63 <=? z) && (z <? 2 ^ 63) in
  match k with
  | KExternalYield p _ | KRecipient p _ | KRetry p _ => i32 p
  | KPeer chain | KPath chain _ => u16 chain
  | KPosition a v t | KByProvider a v t | KByProviderAndVault a v t =>
    (Z.of_nat (length (c_raw c a)) <=? 255) && i32 v && i64 t
  | KReward i => i64 i
  | _ => true
  end.
Lemma fitsb_spec c k : fitsb c k = true -> fits c k.
Proof.
  unfold fits, fits_i32, fits_i64, fits_u16. destruct k; cbn -[Z.pow]; try done; rewrite ?andb_true_iff, ?Z.leb_le, ?Z.ltb_lt; tauto.
Qed.
Definition storableb (c : config) (s : state) : bool :=
  let addrs := remove_dups (omap address_in (items s)) in
  forallb (fitsb c) (items s) &&
  forallb (fun a => forallb (fun b => bool_decide (a = b) || negb (bool_decide (c_raw c a = c_raw c b))) addrs) addrs.
Lemma storableb_spec c s : storableb c s = true -> storable c s.
Proof.
  unfold storableb. rewrite andb_true_iff, !forallb_forall. intros [H1 H2]. split.
  - intros k Hk%elem_items%elem_of_list_In. by apply fitsb_spec, H1.
  - intros k1 k2 Hk1%elem_items Hk2%elem_items a b Ha Hb Hab.
    assert (Ia : a ∈ remove_dups (omap address_in (items s))) by (apply elem_of_remove_dups, elem_of_list_omap; eauto).
    assert (Ib : b ∈ remove_dups (omap address_in (items s))) by (apply elem_of_remove_dups, elem_of_list_omap; eauto).
    apply elem_of_list_In, H2 in Ia. rewrite forallb_forall in Ia. apply elem_of_list_In, Ia in Ib.
    apply orb_true_iff in Ib as [E%bool_decide_eq_true|E%negb_true_iff%bool_decide_eq_false]; done.
Qed.
