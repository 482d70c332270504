(** What the query servers report. *)
From Verif Require Import GenesisP.
From Verif Require Export CoverP.

(** * Names of providers *)
Definition numerals : list Ascii.ascii := String.list_ascii_of_string "-0123456789".
Lemma pretty_N_char_numeral x : pretty_N_char x ∈ numerals.
Proof. unfold pretty_N_char, numerals. repeat case_match; subst; vm_compute; set_solver. Qed.
Lemma pretty_N_go_numeral x : forall t, Forall (.∈ numerals) (String.list_ascii_of_string t) ->
  Forall (.∈ numerals) (String.list_ascii_of_string (pretty_N_go x t)).
Proof.
  induction (N.lt_wf_0 x) as [x _ IH]; intros t Ht.
  assert (x = 0 \/ 0 < x)%N as [->|Hx] by lia; [by rewrite pretty_N_go_0|].
  rewrite pretty_N_go_step by done. apply IH; [by apply N.div_lt|].
  cbn [String.list_ascii_of_string]. constructor; [apply pretty_N_char_numeral|done].
Qed.
Lemma pretty_N_numeral (x : N) : Forall (.∈ numerals) (String.list_ascii_of_string (pretty x)).
Proof.
  unfold pretty, pretty_N. case_decide.
  - vm_compute. repeat constructor; set_solver.
  - apply pretty_N_go_numeral. constructor.
Qed.
Lemma pretty_Z_numeral (z : Z) : Forall (.∈ numerals) (String.list_ascii_of_string (pretty z)).
Proof.
  destruct z as [|x|x]; unfold pretty, pretty_Z.
  - vm_compute. repeat constructor; set_solver.
  - apply pretty_N_numeral.
  - change (String.list_ascii_of_string ("-" +:+ pretty x)) with (Ascii.ascii_of_N 45 :: String.list_ascii_of_string (pretty x)).
    constructor; [vm_compute; set_solver|apply pretty_N_numeral].
Qed.
Lemma name_no_slash p : no_slash (provider_name p).
Proof.
  unfold provider_name, no_slash. destruct (p =? IBC); [vm_compute; set_solver|]. destruct (p =? HYPERLANE); [vm_compute; set_solver|].
  intros Hin. pose proof (pretty_Z_numeral p) as H. rewrite Forall_forall in H. apply H in Hin. vm_compute in Hin. set_solver.
Qed.
Lemma pretty_not_name (z : Z) t : t = "IBC"%string \/ t = "HYPERLANE"%string -> pretty z <> t.
Proof.
  intros Ht E. pose proof (pretty_Z_numeral z) as H. rewrite E in H.
  destruct Ht as [-> | ->]; vm_compute in H; inversion H as [|? ? Hin _]; subst; set_solver.
Qed.
Global Instance provider_name_inj : Inj (=) (=) provider_name.
Proof.
  intros p q. unfold provider_name.
  destruct (Z.eqb_spec p IBC), (Z.eqb_spec q IBC); subst; try done.
  - destruct (Z.eqb_spec q HYPERLANE); [done|]. intros E. symmetry in E. apply pretty_not_name in E; tauto.
  - destruct (Z.eqb_spec p HYPERLANE); [done|]. intros E. apply pretty_not_name in E; tauto.
  - destruct (Z.eqb_spec p HYPERLANE), (Z.eqb_spec q HYPERLANE); subst; try done.
    + intros E. symmetry in E. apply pretty_not_name in E; tauto.
    + intros E. apply pretty_not_name in E; tauto.
    + apply (inj pretty).
Qed.
Lemma before_slash n1 n2 t1 t2 : no_slash n1 -> no_slash n2 -> n1 +:+ String slash t1 = n2 +:+ String slash t2 -> n1 = n2 /\ t1 = t2.
Proof.
  unfold no_slash. revert n2. induction n1 as [|a n1 IH]; intros [|b n2] H1 H2 E; cbn [String.list_ascii_of_string] in *.
  - injection E as ->. done.
  - injection E as E _. subst. exfalso. apply H2. by left.
  - injection E as E _. subst. exfalso. apply H1. by left.
  - injection E as -> E. rewrite elem_of_cons in H1, H2. apply IH in E; [|tauto..]. destruct E as [-> ->]. done.
Qed.
Global Instance format_key_inj : Inj (=) (=) format_key.
Proof.
  intros [p i] [q j]. unfold format_key. cbn [fst snd]. change ("/" +:+ ?x) with (String slash x). intros E.
  apply before_slash in E as [E1 E2]; [|apply name_no_slash..]. apply (inj provider_name) in E1. by subst.
Qed.

(** * Maps by name *)
Lemma foldl_names {A} (l : list ((Z * string) * A)) : forall (m0 : gmap string A) n v, NoDup l.*1 ->
  foldl (fun r kv => <[format_key kv.1 := kv.2]> r) m0 l !! n = Some v <->
  (exists k, n = format_key k /\ (k, v) ∈ l) \/ ((forall k w, (k, w) ∈ l -> n <> format_key k) /\ m0 !! n = Some v).
Proof.
  induction l as [|[k0 v0] l IH]; intros m0 n v Hnd; cbn [foldl fst snd].
  - split; [intros H; right; split; [|done]; intros ? ? Hin; by apply elem_of_nil in Hin|].
    intros [(k & _ & Hin)|[_ H]]; [by apply elem_of_nil in Hin|done].
  - cbn [fmap list_fmap fst] in Hnd. apply NoDup_cons in Hnd as [Hk Hnd]. rewrite IH by done. split.
    + intros [(k & -> & Hin)|[Hno H]].
      * left. exists k. split; [done|by right].
      * apply lookup_insert_Some in H as [[<- <-]|[Hne H]].
        -- left. exists k0. split; [done|by left].
        -- right. split; [|done]. intros k w Hin. apply elem_of_cons in Hin as [[= -> ->]|Hin]; [done|by eapply Hno].
    + intros [(k & -> & Hin)|[Hno H]].
      * apply elem_of_cons in Hin as [[= -> ->]|Hin].
        -- right. split; [|by rewrite lookup_insert]. intros k w Hin E. apply (inj format_key) in E as <-.
           apply Hk. apply elem_of_list_fmap. by exists (k0, w).
        -- left. by exists k.
      * right. split; [intros k w Hin; eapply Hno; by right|].
        rewrite lookup_insert_ne; [done|]. intros E. eapply (Hno k0 v0); [by left|done].
Qed.
Lemma by_name_Some {A} (m : gmap (Z * string) A) n v : by_name m !! n = Some v <-> exists k, n = format_key k /\ m !! k = Some v.
Proof.
  unfold by_name. rewrite foldl_names by apply NoDup_fst_map_to_list. rewrite lookup_empty. split.
  - intros [(k & -> & Hin)|[_ H]]; [|done]. exists k. split; [done|by apply elem_of_map_to_list].
  - intros (k & -> & H). left. exists k. split; [done|by apply elem_of_map_to_list].
Qed.
Lemma by_name_lookup {A} (m : gmap (Z * string) A) k : by_name m !! format_key k = m !! k.
Proof.
  apply option_eq. intros v. rewrite by_name_Some. split; [|by exists k].
  intros (k' & E & H). by apply (inj format_key) in E as <-.
Qed.
(** The same values under the names of the keys, and nothing else. *)
Lemma by_name_exact {A} (m : gmap (Z * string) A) :
  (forall p id, by_name m !! (provider_name p +:+ "/" +:+ id) = m !! (p, id)) /\
  (forall n, is_Some (by_name m !! n) -> exists p id, n = provider_name p +:+ "/" +:+ id).
Proof.
  split; [intros p id; exact (by_name_lookup m (p, id))|].
  intros n [v Hv]. apply by_name_Some in Hv as ([p id] & -> & _). by exists p, id.
Qed.
Theorem recipients_reported s : exists m, q_yield_recipients s = Ok s m /\
  (forall p id, m !! (provider_name p +:+ "/" +:+ id) = d_recipients (st_dollar s) !! (p, id)) /\
  (forall n, is_Some (m !! n) -> exists p id, n = provider_name p +:+ "/" +:+ id).
Proof. eexists. split; [done|]. apply by_name_exact. Qed.
Theorem retries_reported s : exists m, q_retry_amounts s = Ok s m /\
  (forall p id, default 0 (m !! (provider_name p +:+ "/" +:+ id)) = retry_of s p id) /\
  (forall n, is_Some (m !! n) -> exists p id, n = provider_name p +:+ "/" +:+ id) /\
  (forall p id, q_retry_amount p id s = Ok s (default 0 (m !! (provider_name p +:+ "/" +:+ id)))).
Proof.
  eexists. split; [done|]. pose proof (by_name_exact (d_retry (st_dollar s))) as [H1 H2]. split; [|split; [done|]].
  - intros p id. by rewrite H1.
  - intros p id. by rewrite H1.
Qed.

(** * External yield *)
Definition chain_name (c : config) (ibc : string -> string) (s : state) (k : Z * string) : string :=
  if k.1 =? IBC then ibc k.2 else if k.1 =? HYPERLANE then hyperlane_chain_id c s k.2 else "UNKNOWN"%string.
Lemma parse_named k : exists k', parse_key (format_key k) = Some k'.
Proof.
  destruct k as [p id]. unfold parse_key, format_key. cbn [fst snd]. change ("/" +:+ id) with (String slash id).
  rewrite split_slash_app by apply name_no_slash. destruct (split_slash id) as [|h t] eqn:E; [|by eexists].
  exfalso. revert E. destruct id as [|a id]; cbn [split_slash]; [done|]. destruct (Ascii.eqb a slash); [done|]. by destruct (split_slash id).
Qed.
Lemma named_yields_ok c ibc s l : (forall n v, (n, v) ∈ l -> exists k, parse_key n = Some k) -> NoDup l.*1 ->
  exists m, named_yields c ibc s l = Some m /\
    forall n x, m !! n = Some x <-> exists k v, (n, v) ∈ l /\ parse_key n = Some k /\ x = (chain_name c ibc s k, v).
Proof.
  induction l as [|[n0 v0] l IH]; intros Hp Hnd.
  - exists ∅. split; [done|]. intros n x. split; [done|]. intros (k & v & Hin & _). by apply elem_of_nil in Hin.
  - cbn [fmap list_fmap fst] in Hnd. apply NoDup_cons in Hnd as [Hn Hnd].
    destruct (Hp n0 v0) as [k0 Hk0]; [by left|]. destruct IH as (m & Em & Hm); [intros n v Hin; apply (Hp n v); by right|done|].
    cbn [named_yields]. rewrite Hk0. cbn [mbind option_bind]. rewrite Em. cbn [mbind option_bind].
    eexists. split; [reflexivity|]. intros n x. fold (chain_name c ibc s k0). rewrite lookup_insert_Some, Hm. split.
    + intros [[<- <-]|[Hne (k & v & Hin & Hk & ->)]].
      * exists k0, v0. split; [by left|done].
      * exists k, v. split; [by right|done].
    + intros (k & v & Hin & Hk & ->). apply elem_of_cons in Hin as [[= -> ->]|Hin].
      * left. split; [done|]. congruence.
      * right. split; [|by exists k, v]. intros <-. apply Hn. apply elem_of_list_fmap. by exists (n0, v).
Qed.
Theorem external_reported c ibc s : exists m, q_stats_v2 c ibc s = Ok s (d_stats (st_dollar s), m) /\
  (forall p id, (snd <$> m !! (provider_name p +:+ "/" +:+ id)) = d_ext_yield (st_dollar s) !! (p, id)) /\
  (forall n, is_Some (m !! n) -> exists p id, n = provider_name p +:+ "/" +:+ id) /\
  forall id x, no_slash id ->
    (m !! ("IBC/" +:+ id) = Some x -> x.1 = ibc id) /\
    (m !! ("HYPERLANE/" +:+ id) = Some x ->
      x.1 = match c_hex c id with
            | Some h => match x_routers (st_world s) !! internal_id h with Some [d] => pretty d | _ => "UNKNOWN"%string end
            | None => "UNKNOWN"%string
            end).
Proof.
  set (bn := by_name (d_ext_yield (st_dollar s))).
  destruct (named_yields_ok c ibc s (map_to_list bn)) as (m & Em & Hm).
  { intros n v Hin. apply elem_of_map_to_list, by_name_Some in Hin as (k & -> & _). apply parse_named. }
  { apply NoDup_fst_map_to_list. }
  exists m. split.
  { unfold q_stats_v2, bind, gets, opt, ret. fold bn. by rewrite Em. }
  split; [|split].
  - intros p id. change (provider_name p +:+ "/" +:+ id) with (format_key (p, id)). apply option_eq. intros v.
    rewrite fmap_Some. split.
    + intros ([ch w] & Hx & ->). apply Hm in Hx as (k & v & Hin & _ & [= _ ->]).
      apply elem_of_map_to_list in Hin. subst bn. rewrite by_name_lookup in Hin. done.
    + intros Hv. destruct (parse_named (p, id)) as [k Hk]. exists (chain_name c ibc s k, v). split; [|done].
      apply Hm. exists k, v. split; [|done]. apply elem_of_map_to_list. subst bn. by rewrite by_name_lookup.
  - intros n [x Hx]. apply Hm in Hx as (k & v & Hin & _). apply elem_of_map_to_list, by_name_Some in Hin as ([p id] & -> & _). by exists p, id.
  - intros id x Hid. split; intros Hx.
    + change ("IBC/" +:+ id) with (format_key (IBC, id)) in Hx. apply Hm in Hx as (k & v & _ & Hk & ->).
      rewrite parse_format in Hk by (split; [by left|done]). injection Hk as <-. done.
    + change ("HYPERLANE/" +:+ id) with (format_key (HYPERLANE, id)) in Hx. apply Hm in Hx as (k & v & _ & Hk & ->).
      rewrite parse_format in Hk by (split; [by right|done]). injection Hk as <-. cbn [fst chain_name snd].
      change (hyperlane_chain_id c s id = match c_hex c id with
            | Some h => match x_routers (st_world s) !! internal_id h with Some [d] => pretty d | _ => "UNKNOWN"%string end
            | None => "UNKNOWN"%string
            end).
      unfold hyperlane_chain_id. destruct (c_hex c id) as [h|]; [|done]. unfold get_router, bind, gets.
      destruct (x_routers (st_world s) !! internal_id h) as [[|d [|]]|]; done.
Qed.

(** * Dollars *)
Theorem index_reported c s : chain_ok c -> reachable c s -> exists v, q_index s = Ok s v /\ v * 10 ^ 12 = current_index s * 10 ^ 18.
Proof.
  intros Hc Hr. pose proof (winv_reachable _ _ Hc Hr) as [Hw _]. pose proof (wf_index _ _ Hw) as Hi.
  exists (current_index s * 10 ^ 6). split; [|lia]. unfold q_index, get_index, bind, gets, lift, dec_quo_int, dec_of_int.
  change (e12 =? 0) with false. change (d_index (st_dollar s)) with (current_index s) in *. cbv iota.
  assert (Z.quot (current_index s * e18) e12 = current_index s * 10 ^ 6) as -> by (unfold e18, e12; lia). done.
Qed.
Theorem account_reported c s g a : chain_ok c -> reachable c s -> c_dec c g = Some a ->
  q_principal c g s = Ok s (prin s a) /\ (int_range (prin s a * current_index s) -> q_yield c g s = Ok s (claimable s a)).
Proof.
  intros Hc Hr Hd. split; [unfold q_principal; by rewrite Hd|]. intros Hrange.
  pose proof (proj2 (conserved c s Hc Hr) a) as Hb.
  unfold q_yield, get_yield, bind. rewrite Hd. cbv iota. rewrite get_yield_of_run by (done || by apply int_fits_lt).
  cbn zeta. rewrite claimable_present by done. done.
Qed.
Theorem yield_reported c s s' g a y : chain_ok c -> reachable c s -> c_dec c g = Some a -> a <> YieldA ->
  q_yield c g s = Ok s y -> exec c (OpClaimYield g) s = Ok s' tt -> bal s' a = bal s a + y /\ bal s' YieldA = bal s YieldA - y.
Proof.
  intros Hc Hr Hd Ha Hq He. destruct (claim_pays c s s' g a Hc Hr Hd He) as (HB & _).
  assert (y = claimable s a) as ->.
  { pose proof (proj2 (conserved c s Hc Hr) a) as Hb. unfold q_yield, get_yield, bind in Hq. rewrite Hd in Hq.
    destruct (get_yield_of a s) as [s1 y1| |] eqn:E; [|done..]. cbn in Hq. injection Hq as -> <-.
    apply get_yield_of_ok in E as (_ & _ & ->); [|done]. by rewrite claimable_present. }
  rewrite !HB. unfold on. repeat case_decide; subst; try done; lia.
Qed.

(** * Portal *)
Theorem tokens_reported s ch : exists l, q_destination_tokens ch s = Ok s l /\ NoDup l /\
  forall t, t ∈ l <-> p_paths (st_portal s) !! (ch mod 2 ^ 16, t) = Some true.
Proof.
  eexists. split; [done|]. split.
  - generalize (NoDup_map_to_list (p_paths (st_portal s))).
    assert (Hf : forall x y, x ∈ map_to_list (p_paths (st_portal s)) -> y ∈ map_to_list (p_paths (st_portal s)) -> x.1 = y.1 -> x = y).
    { intros [k v] [k' v'] Hx Hy. apply elem_of_map_to_list in Hx, Hy. cbn. intros <-. congruence. }
    revert Hf. generalize (map_to_list (p_paths (st_portal s))). intros l Hf Hnd. induction Hnd as [|[[ch' t] b] l Hx Hnd IH]; cbn; [constructor|].
    assert (IH' := IH (fun x y Hx Hy => Hf x y (elem_of_list_further _ _ _ Hx) (elem_of_list_further _ _ _ Hy))).
    case_decide as E; [|done]. destruct b; [|done]. constructor; [|done].
    intros Hin. apply elem_of_list_omap in Hin as ([[ch2 t2] b2] & Hin & E2). cbn in E2. case_decide as E3; [|done]. destruct b2; [|done].
    injection E2 as <-. apply Hx. cbn in E. subst ch' ch2. done.
  - intros t. rewrite elem_of_list_omap. unfold wrap_u16. split.
    + intros ([[ch2 t2] b2] & Hin & E2). cbn in E2. case_decide as E3; [|done]. destruct b2; [|done]. injection E2 as <-.
      apply elem_of_map_to_list in Hin. cbn in E3. by subst.
    + intros H. exists ((ch mod 2 ^ 16, t), true). split; [by apply elem_of_map_to_list|]. cbn. by rewrite decide_True.
Qed.

(** * Vaults *)
Lemma sum_rewards_ok l : forall acc v, sum_rewards l acc = POk v -> v = acc + list_sum rw_rewards l.
Proof.
  induction l as [|r l IH]; intros acc v; cbn [sum_rewards].
  - intros [= <-]. change (list_sum rw_rewards []) with 0. lia.
  - unfold int_add, int_chk, pbind. destruct (int_fits _); [|done]. intros H. apply IH in H.
    change (list_sum rw_rewards (r :: l)) with (rw_rewards r + list_sum rw_rewards l). lia.
Qed.
Lemma sum_rewards_run l : forall acc, 0 <= acc -> (forall r, r ∈ l -> 0 <= rw_rewards r) -> acc + list_sum rw_rewards l < 2 ^ 256 ->
  sum_rewards l acc = POk (acc + list_sum rw_rewards l).
Proof.
  induction l as [|r l IH]; intros acc Ha Hl Hs; cbn [sum_rewards].
  - change (list_sum rw_rewards []) with 0. by rewrite Z.add_0_r.
  - change (list_sum rw_rewards (r :: l)) with (rw_rewards r + list_sum rw_rewards l) in *.
    assert (0 <= rw_rewards r) by (apply Hl; by left).
    assert (0 <= list_sum rw_rewards l) by (apply list_sum_nonneg; intros; apply Hl; by right).
    unfold int_add, int_chk, pbind. assert (int_fits (acc + rw_rewards r) = true) as -> by (apply int_fits_lt; lia).
    rewrite IH; [f_equal; lia|lia|intros; apply Hl; by right|lia].
Qed.
Lemma remaining_list s : remaining_rewards s = list_sum rw_rewards (map_to_list (v_rewards (st_vaults s))).*2.
Proof.
  change (remaining_rewards s) with (fsum (fun _ r => rw_rewards r) (v_rewards (st_vaults s))). rewrite fsum_list.
  generalize (map_to_list (v_rewards (st_vaults s))). intros l. induction l as [|[k r] l IH]; [done|].
  change (list_sum ?f ((k, r) :: l)) with (f (k, r) + list_sum f l). rewrite IH. done.
Qed.
Theorem rewards_reported s :
  (forall s' v, q_pending_rewards s = Ok s' v -> s' = s /\ v = remaining_rewards s) /\
  ((forall i r, rewards s !! i = Some r -> 0 <= rw_rewards r) -> remaining_rewards s < 2 ^ 256 -> q_pending_rewards s = Ok s (remaining_rewards s)).
Proof.
  rewrite remaining_list. unfold q_pending_rewards, bind, gets, lift. set (l := (map_to_list (v_rewards (st_vaults s))).*2). split.
  - intros s' v H. destruct (sum_rewards l 0) as [v'| |] eqn:E; [|done..]. injection H as <- <-. apply sum_rewards_ok in E. split; [done|]. lia.
  - intros Hn Hlt. rewrite sum_rewards_run; [done|lia| |lia].
    intros r Hr. apply elem_of_list_fmap in Hr as ([k r'] & -> & Hr). apply elem_of_map_to_list in Hr. by eapply Hn.
Qed.
Theorem positions_reported c s g a : chain_ok c -> reachable c s -> c_dec c g = Some a ->
  exists l, q_positions_by_provider c g s = Ok s l /\ NoDup l /\
    forall v p, (v, p) ∈ l <-> positions s !! (a, v, pos_time p) = Some p.
Proof.
  intros Hc Hr Hd. pose proof (winv_reachable _ _ Hc Hr) as [_ Hp]. unfold q_positions_by_provider. rewrite Hd.
  eexists. split; [done|].
  assert (Hk : forall v p t, positions s !! (a, v, t) = Some p -> t = pos_time p) by (intros v p t H; by apply Hp in H as (_ & -> & _)).
  split.
  - change (v_positions (st_vaults s)) with (positions s). generalize (NoDup_map_to_list (positions s)).
    assert (Hf : forall x, x ∈ map_to_list (positions s) -> x.1.1.1 = a -> x.1 = (a, x.1.1.2, pos_time x.2)).
    { intros [[[a' v] t] p] Hin. apply elem_of_map_to_list in Hin. cbn. intros ->. by rewrite (Hk _ _ _ Hin). }
    revert Hf. generalize (map_to_list (positions s)). intros l Hf Hnd. induction Hnd as [|[k p] l Hx Hnd IH]; cbn; [constructor|].
    assert (IH' := IH (fun x Hx => Hf x (elem_of_list_further _ _ _ Hx))).
    case_decide as E; [|done]. constructor; [|done].
    intros Hin. apply elem_of_list_omap in Hin as ([k2 p2] & Hin & E2). cbn in E2. case_decide as E3; [|done].
    injection E2 as E4 ->. apply Hx. cbn in E, E3.
    pose proof (Hf (k, p) ltac:(by left) E) as F1. pose proof (Hf (k2, p) ltac:(by right) E3) as F2. cbn in F1, F2. rewrite E4 in F2. congruence.
  - intros v p. rewrite elem_of_list_omap. split.
    + intros ([[[a2 v2] t] p2] & Hin & E2). cbn in E2. case_decide as E3; [|done]. injection E2 as -> ->.
      apply elem_of_map_to_list in Hin. subst a2. change (v_positions (st_vaults s)) with (positions s) in Hin. by rewrite <- (Hk _ _ _ Hin).
    + intros H. exists ((a, v, pos_time p), p). split; [by apply elem_of_map_to_list|]. cbn. by rewrite decide_True.
Qed.
(** Queries only read. *)
Theorem more_queries_read c ibc : let reads {A} (q : M A) := forall s s' r, q s = Ok s' r -> s' = s in
  reads q_vaults_paused /\ (forall g, reads (q_positions_by_provider c g)) /\ reads q_vaults_stats /\
  reads q_yield_recipients /\ reads q_retry_amounts /\ reads (q_stats_v2 c ibc).
Proof.
  intros reads. split_and!; intros; subst reads; intros s s' r;
    unfold q_vaults_paused, q_positions_by_provider, q_vaults_stats, q_yield_recipients, q_retry_amounts, q_stats_v2, opt, gets, lift, bind, ret, fail, panic;
    repeat case_match; intros; simplify_eq; done.
Qed.
