(** What successful lock and unlock messages do. *)
From Verif Require Export OpsP.

(** * Sums over lists *)
Lemma list_sum_perm {A} (f : A -> Z) l l' : l ≡ₚ l' -> list_sum f l = list_sum f l'.
Proof. unfold list_sum. induction 1; cbn; lia. Qed.
Lemma list_sum_app {A} (f : A -> Z) l l' : list_sum f (l ++ l') = list_sum f l + list_sum f l'.
Proof. unfold list_sum. induction l; cbn; lia. Qed.
Lemma fsum_list {K A} `{Countable K} (f : K -> A -> Z) (m : gmap K A) :
  fsum f m = list_sum (fun kv => f kv.1 kv.2) (map_to_list m).
Proof.
  unfold fsum, map_fold, list_sum; cbn. induction (map_to_list m) as [|[k v] l IH]; cbn; [done|]. by rewrite IH.
Qed.
Lemma list_sum_filter {A} (f : A -> Z) (P : A -> Prop) `{forall x, Decision (P x)} l :
  list_sum f (filter P l) = list_sum (fun a => if decide (P a) then f a else 0) l.
Proof.
  induction l as [|a l IH]; [done|]. rewrite filter_cons. unfold list_sum in *; cbn.
  case_decide; cbn; rewrite IH; done.
Qed.

(** * Rewards *)
Definition ur (r : reward) (ap : Z) : Z :=
  Z.quot (dec_chop_round (Z.quot (rw_rewards r * e18 * e18 * e18) (rw_total r * e18)) * ap) e18.
Definition live (r : reward) : bool := (0 <? rw_total r) && (0 <? rw_rewards r).
(** What a record pays for a withdrawal with principal [ap] while the index is [ci]. *)
Definition rpay (ci ap : Z) (r : reward) : Z :=
  if live r && negb (rw_index r =? ci) then ur r ap else 0.
Definition rsettle (ci ap : Z) (r : reward) : reward :=
  if live r then mk_reward (rw_index r) (rw_total r - ap) (rw_rewards r - rpay ci ap r) else r.
Definition settle_map (ci ap pi : Z) (m : gmap Z reward) : gmap Z reward :=
  map_imap (fun k r => Some (if pi <? k then rsettle ci ap r else r)) m.
Definition rsum (ci ap pi : Z) (m : gmap Z reward) : Z :=
  fsum (fun k r => if pi <? k then rpay ci ap r else 0) m.

Lemma user_reward_ok r ap u : user_reward r ap = POk u -> u = ur r ap.
Proof.
  unfold user_reward, pbind, dec_quo, dec_mul_int, dec_truncate, int_chk, dec_of_int, ur.
  repeat (case_match; try discriminate). intros [= <-]. congruence.
Qed.
Lemma user_reward_err r ap e : user_reward r ap = PErr e -> False.
Proof.
  unfold user_reward, pbind, dec_quo, dec_mul_int, dec_truncate, int_chk.
  repeat (case_match; try discriminate); congruence.
Qed.

Definition set_rewards (s : state) (m : gmap Z reward) : state := s <| st_vaults; v_rewards := m |>.
Lemma set_rewards_id s : set_rewards s (v_rewards (st_vaults s)) = s.
Proof. by destruct s as [? ? ? [] ?]. Qed.
Lemma set_rewards_twice s m m' : set_rewards (set_rewards s m) m' = set_rewards s m'.
Proof. by destruct s as [? ? ? [] ?]. Qed.

Lemma walk_list_spec ci ap l : forall s acc (Q : state -> Z -> Prop) E,
  NoDup l.*1 -> (forall k r, (k, r) ∈ l -> v_rewards (st_vaults s) !! k = Some r) ->
  (forall m, (forall k, m !! k = match list_find (fun kr => kr.1 = k) l with
                                 | Some (_, kr) => Some (rsettle ci ap kr.2)
                                 | None => v_rewards (st_vaults s) !! k end) ->
     Q (set_rewards s m) (acc + list_sum (fun kr => rpay ci ap kr.2) l)) ->
  wp (walk_rewards ci ap l acc) s Q E.
Proof.
  induction l as [|[k r] l IH]; intros s acc Q E Hnd Hin HQ; cbn [walk_rewards].
  - apply wp_ret. specialize (HQ (v_rewards (st_vaults s)) (fun k => eq_refl)).
    rewrite set_rewards_id in HQ. unfold list_sum in HQ; cbn in HQ. by rewrite Z.add_0_r in HQ.
  - cbn in Hnd. apply NoDup_cons in Hnd as [Hk Hnd].
    assert (Hf : forall j, j = k \/ j <> k) by (intros; lia).
    assert (Hnone : list_find (fun kr : Z * reward => kr.1 = k) l = None).
    { apply list_find_None, Forall_forall. intros [j r'] Hj <-. apply Hk. by apply elem_of_list_fmap_1 with (f := fst) in Hj. }
    assert (Hfind : forall j, list_find (fun kr : Z * reward => kr.1 = j) ((k, r) :: l) =
       if decide (k = j) then Some (0%nat, (k, r)) else
       prod_map S id <$> list_find (fun kr : Z * reward => kr.1 = j) l).
    { intros j. cbn. done. }
    assert (Hlive : live r = negb (negb (0 <? rw_total r) || negb (0 <? rw_rewards r))).
    { unfold live. by destruct (0 <? rw_total r), (0 <? rw_rewards r). }
    destruct (negb (0 <? rw_total r) || negb (0 <? rw_rewards r)) eqn:El; cbn [negb] in Hlive.
    + apply IH; [done| |].
      { intros. apply Hin. by right. }
      intros m Hm. specialize (HQ m). unfold list_sum in HQ; cbn [foldr] in HQ.
      cbn [snd] in HQ. unfold rpay in HQ at 1. rewrite Hlive in HQ. cbn [andb] in HQ. rewrite Z.add_0_l in HQ.
      apply HQ. intros j. rewrite Hm, Hfind. case_decide as Hjk.
      * subst j. rewrite Hnone. cbn [snd]. unfold rsettle. rewrite Hlive. apply Hin. by left.
      * match goal with |- context [list_find ?P l] => destruct (list_find P l) as [[? ?]|] end; done.
    + assert (Hu : wp (if negb (rw_index r =? ci) && negb (rw_rewards r <? 0)
            then lift (user_reward r ap) else ret 0) s (fun s' u => s' = s /\ u = rpay ci ap r) E).
      { unfold rpay. rewrite Hlive. cbn [andb].
        apply orb_false_iff in El as [El1 El2]. apply negb_false_iff in El1, El2.
        apply Z.ltb_lt in El1, El2. rewrite (proj2 (Z.ltb_ge (rw_rewards r) 0)) by lia. cbn [negb].
        rewrite andb_true_r. destruct (negb (rw_index r =? ci)); [|by apply wp_ret].
        apply wp_lift; [|intros e He; by apply user_reward_err in He].
        intros u Hu%user_reward_ok. auto. }
      apply wp_bind. eapply wp_mono; [exact Hu| |auto]. intros s1 u [-> ->].
      apply wp_bind, wp_lift; [|intros e He; by apply int_sub_err in He].
      intros t Ht%int_sub_ok. subst t.
      apply wp_bind, wp_lift; [|intros e He; by apply int_sub_err in He].
      intros t Ht%int_sub_ok. subst t. apply wp_bind, wp_modify.
      apply wp_bind, wp_lift; [|intros e He; by apply int_add_err in He].
      intros t Ht%int_add_ok. subst t.
      set (r' := mk_reward (rw_index r) (rw_total r - ap) (rw_rewards r - rpay ci ap r)).
      change (wp (walk_rewards ci ap l (acc + rpay ci ap r)) (set_rewards s (<[k := r']> (v_rewards (st_vaults s)))) Q E).
      apply IH; [done| |].
      { intros j q Hj. transitivity (<[k := r']> (v_rewards (st_vaults s)) !! j); [done|].
        rewrite lookup_insert_ne; [apply Hin; by right|]. intros <-. apply Hk.
        by apply elem_of_list_fmap_1 with (f := fst) in Hj. }
      intros m Hm. rewrite set_rewards_twice. specialize (HQ m). unfold list_sum in HQ; cbn [foldr snd] in HQ.
      rewrite Z.add_assoc in HQ. apply HQ. intros j. rewrite Hm, Hfind. case_decide as Hjk.
      * subst j. rewrite Hnone. cbn [snd]. transitivity (<[k := r']> (v_rewards (st_vaults s)) !! k); [done|].
        rewrite lookup_insert. unfold rsettle. by rewrite Hlive.
      * match goal with |- context [list_find ?P l] => destruct (list_find P l) as [[? ?]|] end; [done|]; cbn.
        transitivity (<[k := r']> (v_rewards (st_vaults s)) !! j); [done|]. by rewrite lookup_insert_ne.
Qed.

Lemma rewards_above_perm s i :
  rewards_above s i ≡ₚ filter (fun kv : Z * reward => i < kv.1) (map_to_list (v_rewards (st_vaults s))).
Proof. apply merge_sort_Permutation. Qed.

Lemma walk_spec ci ap pi s acc (Q : state -> Z -> Prop) E :
  Q (set_rewards s (settle_map ci ap pi (v_rewards (st_vaults s)))) (acc + rsum ci ap pi (v_rewards (st_vaults s))) ->
  wp (walk_rewards ci ap (rewards_above s pi) acc) s Q E.
Proof.
  intros HQ. set (m0 := v_rewards (st_vaults s)) in *.
  pose proof (rewards_above_perm s pi) as Hp. fold m0 in Hp.
  assert (Hin : forall k r, (k, r) ∈ rewards_above s pi <-> pi < k /\ m0 !! k = Some r).
  { intros k r. rewrite Hp, elem_of_list_filter, elem_of_map_to_list. done. }
  assert (Hnd : NoDup (rewards_above s pi).*1).
  { rewrite Hp. clear. pose proof (NoDup_fst_map_to_list m0) as H.
    induction (map_to_list m0) as [|[k r] l IH]; [constructor|]. cbn in H. apply NoDup_cons in H as [H1 H2].
    rewrite filter_cons. case_decide; [|auto]. cbn. constructor; [|auto].
    intros Hk. apply H1. apply elem_of_list_fmap in Hk as ([j q] & -> & Hj).
    apply elem_of_list_filter in Hj as [_ Hj]. by apply elem_of_list_fmap_1 with (f := fst) in Hj. }
  apply walk_list_spec; [done| |].
  - intros k r Hk. by apply Hin in Hk as [_ ?].
  - intros m Hm. fold m0 in Hm.
    assert (m = settle_map ci ap pi m0) as ->.
    { apply map_eq. intros k. rewrite Hm. unfold settle_map. rewrite map_lookup_imap.
      destruct (list_find _ _) as [[j [k' r]]|] eqn:Ef.
      - apply list_find_Some in Ef as (Hj & Hk & _). cbn in Hk. subst k'.
        apply elem_of_list_lookup_2, Hin in Hj as [Hlt ->]. cbn.
        by rewrite (proj2 (Z.ltb_lt pi k)).
      - destruct (m0 !! k) as [r|] eqn:Ek; [|done]. cbn. destruct (Z.ltb_spec pi k); [|done].
        exfalso. apply list_find_None in Ef. rewrite Forall_forall in Ef.
        apply (Ef (k, r)); [by apply Hin|done]. }
    replace (list_sum (fun kr => rpay ci ap kr.2) (rewards_above s pi)) with (rsum ci ap pi m0); [done|].
    rewrite (list_sum_perm _ _ _ Hp), list_sum_filter. unfold rsum. rewrite fsum_list.
    unfold list_sum. clear. induction (map_to_list m0) as [|[k r] l IH]; [done|]. cbn. rewrite IH.
    destruct (Z.ltb_spec pi k), (decide (pi < k)); lia.
Qed.

(** ClaimRewards *)
Definition rewarded (s : state) (a : addr) (ci ap pi : Z) : state :=
  xfer (set_rewards s (settle_map ci ap pi (v_rewards (st_vaults s)))) FlexibleA a (rsum ci ap pi (v_rewards (st_vaults s))).
Lemma claim_rewards_spec a p part s (Q : state -> Z -> Prop) :
  a <> ModuleA -> a <> YieldA ->
  (prin s FlexibleA <= 0 -> Q s 0) ->
  (let ci := current_index s in let ap := down part (pos_index p) in
   let tot := rsum ci ap (pos_index p) (v_rewards (st_vaults s)) in
   0 < prin s FlexibleA -> 0 <= tot -> tot <= bal s FlexibleA \/ tot = 0 ->
   Q (rewarded s a ci ap (pos_index p)) tot) ->
  wp (claim_rewards a p part) s Q top2.
Proof.
  intros Hm Hy HQ0 HQ. unfold claim_rewards, get_principal, get_index.
  apply wp_bind, wp_gets. destruct (Z.ltb_spec 0 (prin s FlexibleA)); cbn [negb]; [|apply wp_ret; auto].
  apply wp_bind, wp_gets, wp_bind, wp_lift; [|done]. intros ap [_ ->]%principal_down_ok.
  apply wp_bind, wp_gets, wp_bind, walk_spec. rewrite Z.add_0_l.
  apply wp_bind, new_coins_spec. intros Hn. apply wp_bind, send_plain_spec; auto.
  intros Hb. apply wp_ret. apply HQ; auto.
Qed.

(** The claim computes the present value, so that fits. *)
Lemma get_yield_fits a s : wp (get_yield_of a) s (fun s' _ => s' = s /\ int_fits (prin s a * current_index s) = true) top2.
Proof.
  unfold get_yield_of, get_principal, get_index. apply wp_bind, wp_gets, wp_bind, wp_gets, wp_bind, wp_gets, wp_bind, wp_lift; [|done].
  intros x Hx. apply wp_ret. split; [done|]. unfold present_amount, pbind, int_mul, int_chk in Hx. by destruct (int_fits (prin s a * current_index s)).
Qed.
Lemma claim_module_fits c a s (Q : state -> Z -> Prop) :
  (int_fits (prin s a * current_index s) = true -> yield_of s a <= bal s YieldA \/ yield_of s a = 0 -> Q (pay s a (yield_of s a)) (yield_of s a)) ->
  wp (claim_module_yield c a) s Q top2.
Proof.
  intros HQ.
  assert (H1 : wp (claim_module_yield c a) s (fun _ _ => int_fits (prin s a * current_index s) = true) top2).
  { unfold claim_module_yield. apply wp_bind. eapply wp_mono; [apply get_yield_fits| |done]. intros s1 y [-> Hf].
    apply wp_bind. unfold wp. destruct (whenb _ _ s); done. }
  assert (H2 : wp (claim_module_yield c a) s (fun s' y => y = yield_of s a /\ (y <= bal s YieldA \/ y = 0) /\ s' = pay s a y) top2).
  { apply claim_module_spec; auto. }
  eapply wp_mono; [apply (wp_conj _ _ _ _ _ _ H1 H2)| |done]. intros s' y [Hf (-> & Hle & ->)]. auto.
Qed.

(** * Unlock *)
Definition sub_flex (s : state) (pp : Z) : state :=
  s <| st_vaults; v_total_flex := v_total_flex (st_vaults s) - pp |>.
Definition add_dist (s : state) (r : Z) : state :=
  s <| st_vaults; v_stats; vs_flex_distributed := vs_flex_distributed (v_stats (st_vaults s)) + r |>.
(** The position after [part] was taken out. *)
Definition upos (s : state) (a : addr) (vault : Z) (p : position) (part pp : Z) : state :=
  s <| st_vaults; v_positions :=
    if pos_amount p <=? part then delete (a, vault, pos_time p) (v_positions (st_vaults s))
    else <[(a, vault, pos_time p) := mk_position (pos_principal p - pp) (pos_index p) (pos_amount p - part) (pos_time p)]>
           (v_positions (st_vaults s)) |>.

Section unlock.
Context (c : config) (signer : string) (a : addr) (vault : Z).
Definition pacct (p : position) : addr := position_account signer vault (pos_time p).

(** Reward part of a flexible withdrawal. *)
Inductive rewards_rel (p : position) (pp : Z) (s : state) : state -> Z -> Prop :=
| rw_none : prin s FlexibleA <= 0 -> rewards_rel p pp s s 0
| rw_some tot : 0 < prin s FlexibleA ->
    tot = rsum (current_index s) pp (pos_index p) (v_rewards (st_vaults s)) ->
    0 <= tot -> tot <= bal s FlexibleA \/ tot = 0 ->
    rewards_rel p pp s (rewarded s a (current_index s) pp (pos_index p)) tot.

Inductive unl1 (p : position) (part : Z) (s : state) : state -> Prop :=
| unl_staked : vault <> FLEXIBLE -> part <= bal s (pacct p) ->
    unl1 p part s (upos (send_result s (pacct p) a part) a vault p part (down part (pos_index p)))
| unl_flex s2 rew y : vault = FLEXIBLE ->
    rewards_rel p (down part (pos_index p)) (sub_flex s (down part (pos_index p))) s2 rew ->
    y = yield_of (add_dist s2 rew) (pacct p) ->
    y <= bal s2 YieldA \/ y = 0 ->
    part + y <= bal (pay (add_dist s2 rew) (pacct p) y) (pacct p) ->
    int_fits (prin s2 (pacct p) * current_index s2) = true ->
    unl1 p part s (upos (send_result (pay (add_dist s2 rew) (pacct p) y) (pacct p) a (part + y))
                     a vault p part (down part (pos_index p))).

Definition part_of (p : position) (rem : Z) : Z := if rem <? pos_amount p then rem else pos_amount p.

Inductive unls : list position -> Z -> state -> Z -> Z -> state -> Prop :=
| unls_nil rem s : unls [] rem s rem 0 s
| unls_stop p l s : unls (p :: l) 0 s 0 0 s
| unls_cons p l rem s s1 s2 rem' d : rem <> 0 ->
    unl1 p (part_of p rem) s s1 ->
    unls l (rem - part_of p rem) s1 rem' d s2 ->
    unls (p :: l) rem s rem' (down (part_of p rem) (pos_index p) + d) s2.

Lemma pacct_not p : pacct p <> ModuleA /\ pacct p <> YieldA /\ pacct p <> FlexibleA /\ pacct p <> WarpA.
Proof.
  unfold pacct, position_account, position_account_name.
  destruct (vault =? FLEXIBLE); repeat split; discriminate.
Qed.

Lemma unlock_loop_spec l : forall rem removed s (Q : state -> Z * Z -> Prop),
  a <> ModuleA -> a <> YieldA ->
  Forall (fun p => 0 < pos_amount p) l -> 0 <= rem ->
  (forall rem' d s', unls l rem s rem' d s' -> Q s' (rem', removed + d)) ->
  wp (unlock_loop c signer a vault l rem removed) s Q top2.
Proof.
  induction l as [|p l IH]; intros rem removed s Q Hm Hy Hpos Hrem HQ; cbn [unlock_loop].
  { apply wp_ret. rewrite <- (Z.add_0_r removed). apply HQ. constructor. }
  destruct (Z.eqb_spec rem 0) as [->|Hne].
  { apply wp_ret. rewrite <- (Z.add_0_r removed). apply HQ. constructor. }
  apply Forall_cons in Hpos as [Hpa Hpos].
  fold (part_of p rem). set (part := part_of p rem).
  assert (Hpart : 0 < part <= rem).
  { subst part. unfold part_of. destruct (Z.ltb_spec rem (pos_amount p)); lia. }
  destruct (pacct_not p) as (Hpm & Hpy & Hpf & Hpw).
  apply wp_bind, wp_lift; [|done]. intros pp [_ ->]%principal_down_ok.
  set (pp := down part (pos_index p)).
  (* the tail *)
  assert (Htail : forall s1, unl1 p part s (upos s1 a vault p part pp) ->
    wp ((if pos_amount p <=? part then remove_position (a, vault, pos_time p)
     else
       p' <- lift (int_sub (pos_principal p) pp);;
       a' <- lift (int_sub (pos_amount p) part);;
       set_position (a, vault, pos_time p) (mk_position p' (pos_index p) a' (pos_time p)));;;
    removed' <- lift (int_add removed pp);;
    remaining' <- lift (int_sub rem part);;
    unlock_loop c signer a vault l remaining' removed') s1 Q top2).
  { intros s1 H1. apply wp_bind.
    assert (Hp : wp (if pos_amount p <=? part then remove_position (a, vault, pos_time p)
     else
       p' <- lift (int_sub (pos_principal p) pp);;
       a' <- lift (int_sub (pos_amount p) part);;
       set_position (a, vault, pos_time p) (mk_position p' (pos_index p) a' (pos_time p))) s1
      (fun s' _ => s' = upos s1 a vault p part pp) top2).
    { unfold upos. destruct (pos_amount p <=? part).
      - by apply wp_modify.
      - apply wp_bind, wp_lift; [|done]. intros z Hz%int_sub_ok. subst z.
        apply wp_bind, wp_lift; [|done]. intros z Hz%int_sub_ok. subst z. by apply wp_modify. }
    eapply wp_mono; [exact Hp| |done]. intros s2 [] ->. clear Hp.
    apply wp_bind, wp_lift; [|done]. intros z Hz%int_add_ok. subst z.
    apply wp_bind, wp_lift; [|done]. intros z Hz%int_sub_ok. subst z.
    apply IH; auto; [lia|]. intros rem' d s' Hu. rewrite <- Z.add_assoc. apply HQ. by econstructor. }
  apply wp_bind. destruct (Z.eqb_spec vault FLEXIBLE) as [Hv|Hv].
  - apply wp_bind, wp_gets, wp_bind, wp_lift; [|done]. intros z Hz%int_sub_ok. subst z.
    apply wp_bind, wp_modify, wp_bind.
    change (wp (claim_rewards a p part) (sub_flex s pp)
      (fun s' rew => wp (increment_distributed rew;;; y <- claim_module_yield c (pacct p);;
         (if 0 <? y then lift (int_add part y) else ret part)) s'
        (fun s'0 a0 => wp (amt <- new_coins a0;; send_coins (pacct p) a amt;;;
           (if pos_amount p <=? part then remove_position (a, vault, pos_time p)
     else
       p' <- lift (int_sub (pos_principal p) pp);;
       a' <- lift (int_sub (pos_amount p) part);;
       set_position (a, vault, pos_time p) (mk_position p' (pos_index p) a' (pos_time p)));;;
    removed' <- lift (int_add removed pp);;
    remaining' <- lift (int_sub rem part);;
    unlock_loop c signer a vault l remaining' removed') s'0 Q top2) top2) top2).
    assert (Hrest : forall s2 rew, rewards_rel p pp (sub_flex s pp) s2 rew ->
      wp (increment_distributed rew;;; y <- claim_module_yield c (pacct p);;
         (if 0 <? y then lift (int_add part y) else ret part)) s2
        (fun s'0 a0 => wp (amt <- new_coins a0;; send_coins (pacct p) a amt;;;
           (if pos_amount p <=? part then remove_position (a, vault, pos_time p)
     else
       p' <- lift (int_sub (pos_principal p) pp);;
       a' <- lift (int_sub (pos_amount p) part);;
       set_position (a, vault, pos_time p) (mk_position p' (pos_index p) a' (pos_time p)));;;
    removed' <- lift (int_add removed pp);;
    remaining' <- lift (int_sub rem part);;
    unlock_loop c signer a vault l remaining' removed') s'0 Q top2) top2).
    { intros s2 rew Hr. unfold increment_distributed. apply wp_bind, wp_bind, wp_gets, wp_bind, wp_lift; [|done].
      intros z Hz%int_add_ok. subst z. apply wp_modify.
      change (wp (y <- claim_module_yield c (pacct p);; (if 0 <? y then lift (int_add part y) else ret part)) (add_dist s2 rew)
        (fun s'0 a0 => wp (amt <- new_coins a0;; send_coins (pacct p) a amt;;;
           (if pos_amount p <=? part then remove_position (a, vault, pos_time p)
     else
       p' <- lift (int_sub (pos_principal p) pp);;
       a' <- lift (int_sub (pos_amount p) part);;
       set_position (a, vault, pos_time p) (mk_position p' (pos_index p) a' (pos_time p)));;;
    removed' <- lift (int_add removed pp);;
    remaining' <- lift (int_sub rem part);;
    unlock_loop c signer a vault l remaining' removed') s'0 Q top2) top2).
      apply wp_bind, claim_module_fits. intros Hfit Hyb.
      set (y := yield_of (add_dist s2 rew) (pacct p)) in *.
      pose proof (yield_of_nonneg (add_dist s2 rew) (pacct p)) as Hy0. fold y in Hy0.
      assert (Hsend : wp (amt <- new_coins (part + y);; send_coins (pacct p) a amt;;;
           (if pos_amount p <=? part then remove_position (a, vault, pos_time p)
     else
       p' <- lift (int_sub (pos_principal p) pp);;
       a' <- lift (int_sub (pos_amount p) part);;
       set_position (a, vault, pos_time p) (mk_position p' (pos_index p) a' (pos_time p)));;;
    removed' <- lift (int_add removed pp);;
    remaining' <- lift (int_sub rem part);;
    unlock_loop c signer a vault l remaining' removed') (pay (add_dist s2 rew) (pacct p) y) Q top2).
      { apply wp_bind, new_coins_spec. intros _. apply wp_bind, send_plain_spec; auto; [clearbody y; lia|].
        intros Hb. unfold xfer. rewrite (proj2 (Z.ltb_lt 0 (part + y))) by (clearbody y; lia).
        apply Htail. apply (unl_flex p part s s2 rew y); auto.
        clearbody y; destruct Hb as [Hb|Hb]; [exact Hb|lia]. }
      destruct (Z.ltb_spec 0 y).
      - apply wp_lift; [|done]. intros z Hz%int_add_ok. subst z. exact Hsend.
      - apply wp_ret. assert (y = 0) as E by (clearbody y; lia). rewrite E in Hsend |- *. rewrite Z.add_0_r in Hsend. exact Hsend. }
    apply claim_rewards_spec; auto.
    + intros Hle. apply Hrest. by constructor.
    + cbn zeta. intros Hp Hn Hb. apply Hrest. by constructor.
  - apply wp_ret, wp_bind, new_coins_spec. intros _. fold (pacct p).
    apply wp_bind, send_plain_spec; auto; [lia|].
    intros Hb. unfold xfer. rewrite (proj2 (Z.ltb_lt 0 part)) by lia. apply Htail.
    constructor; auto. lia.
Qed.
End unlock.

(** * Statistics *)
Definition users_up (vault : Z) (t : vstats) : vstats :=
  if vault =? STAKED then t <| vs_staked_users := wrap_u64 (vs_staked_users t + 1) |>
  else if vault =? FLEXIBLE then t <| vs_flex_users := wrap_u64 (vs_flex_users t + 1) |> else t.
Definition users_down (vault : Z) (t : vstats) : vstats :=
  if vault =? STAKED then t <| vs_staked_users := wrap_u64 (vs_staked_users t - 1) |>
  else if vault =? FLEXIBLE then t <| vs_flex_users := wrap_u64 (vs_flex_users t - 1) |> else t.
Definition vprin_add (vault d : Z) (t : vstats) : vstats :=
  if vault =? STAKED then t <| vs_staked_principal := vs_staked_principal t + d |>
  else if vault =? FLEXIBLE then t <| vs_flex_principal := vs_flex_principal t + d |> else t.
Definition with_stats (s : state) (f : vstats -> vstats) : state :=
  s <| st_vaults; v_stats := f (v_stats (st_vaults s)) |>.

Definition put_pos (s : state) (k : addr * Z * Z) (p : position) : state :=
  s <| st_vaults; v_positions := <[k := p]> (v_positions (st_vaults s)) |>.
Definition add_flex (s : state) (vault pp : Z) : state :=
  if vault =? FLEXIBLE then s <| st_vaults; v_total_flex := v_total_flex (st_vaults s) + pp |> else s.
Definition lock_state (s : state) (a pa : addr) (vault amt : Z) : state :=
  add_flex (put_pos (send_result s a pa amt) (a, vault, x_now (st_world s))
    (mk_position (down amt (current_index s)) (current_index s) amt (x_now (st_world s))))
    vault (down amt (current_index s)).
Definition lock_result (s : state) (a pa : addr) (vault amt : Z) : state :=
  let s1 := lock_state s a pa vault amt in
  with_stats s1 (fun t => vprin_add vault (down amt (current_index s))
    (if Nat.eqb (length (positions_of s1 a vault)) 1 then users_up vault t else t)).

Lemma position_account_not signer vault t :
  position_account signer vault t <> ModuleA /\ position_account signer vault t <> YieldA /\
  position_account signer vault t <> FlexibleA /\ position_account signer vault t <> WarpA.
Proof.
  unfold position_account, position_account_name. destruct (vault =? FLEXIBLE); repeat split; discriminate.
Qed.

Lemma lock_inv c signer vault amount s s' a : chain_ok c ->
  c_dec c signer = Some a -> a <> ModuleA -> a <> YieldA ->
  lock c signer vault amount s = Ok s' tt ->
  exists amt, amount = Some amt /\ (vault = FLEXIBLE -> v_ended (st_vaults s) = false) /\
    v_paused (st_vaults s) <> PAUSE_ALL /\ v_paused (st_vaults s) <> PAUSE_LOCK /\
    c_min_lock c <= amt <= bal s a /\ (vault = STAKED \/ vault = FLEXIBLE) /\
    v_positions (st_vaults s) !! (a, vault, x_now (st_world s)) = None /\
    s' = lock_result s a (position_account signer vault (x_now (st_world s))) vault amt.
Proof.
  intros Hc Hd Hm Hy. inv_ok. unfold lock. apply wp_bind, wp_gets.
  destruct ((vault =? FLEXIBLE) && v_ended (st_vaults s)) eqn:Ee; [done|].
  apply wp_bind, wp_gets.
  destruct ((v_paused (st_vaults s) =? PAUSE_ALL) || (v_paused (st_vaults s) =? PAUSE_LOCK)) eqn:Ep; [done|].
  rewrite Hd. destruct amount as [amt|]; [|done].
  destruct (Z.ltb_spec amt (c_min_lock c)); [done|].
  destruct (vault_exists vault) eqn:Ev; [|done]. cbn [negb].
  apply wp_bind, wp_gets, wp_bind, wp_gets. bd; [done|]. apply wp_bind, wp_gets.
  destruct (Z.ltb_spec (bal s a) amt); [done|].
  apply wp_bind, new_coins_spec. intros _.
  destruct (position_account_not signer vault (x_now (st_world s))) as (Hpm & Hpy & _).
  pose proof (ok_min_lock c Hc).
  apply wp_bind, send_plain_spec; auto; [lia|]. intros _.
  unfold xfer. rewrite (proj2 (Z.ltb_lt 0 amt)) by lia.
  unfold get_index. apply wp_bind, wp_gets, wp_bind, wp_lift; [|done].
  intros p [_ ->]%principal_down_ok. apply wp_bind, wp_modify, wp_bind.
  set (pa := position_account signer vault (x_now (st_world s))).
  assert (Hfin : wp (n <- gets (fun s => length (positions_of s a vault));;
      whenb (Nat.eqb n 1) (increment_vault_users vault);;;
      increment_vault_principal vault (down amt (current_index s)))
    (lock_state s a pa vault amt) (fun s' _ => s' = lock_result s a pa vault amt) top2).
  { apply wp_bind, wp_gets, wp_bind.
    unfold lock_result. set (s1 := lock_state s a pa vault amt).
    assert (Hpr : forall s2, wp (increment_vault_principal vault (down amt (current_index s))) s2
      (fun s' _ => s' = with_stats s2 (vprin_add vault (down amt (current_index s)))) top2).
    { intros s2. unfold increment_vault_principal. apply wp_bind, wp_gets, wp_bind, wp_lift; [|done].
      intros z Hz%int_add_ok. subst z. apply wp_modify. unfold vprin_add, vault_principal, with_stats.
      destruct (vault =? STAKED); [done|]. destruct (vault =? FLEXIBLE); [done|].
      by destruct s2 as [? ? ? [] ?]. }
    destruct (Nat.eqb (length (positions_of s1 a vault)) 1); cbn [whenb].
    - apply wp_modify. eapply wp_mono; [apply Hpr| |done]. intros s3 [] ->. unfold users_up, with_stats.
      destruct (vault =? STAKED); [done|]. destruct (vault =? FLEXIBLE); done.
    - apply wp_ret. eapply wp_mono; [apply Hpr| |done]. intros s3 [] ->. done. }
  assert (Hgoal : forall s3, s3 = lock_result s a pa vault amt -> exists amt0 : Z,
    Some amt = Some amt0 /\ (vault = FLEXIBLE -> v_ended (st_vaults s) = false) /\
    v_paused (st_vaults s) <> PAUSE_ALL /\ v_paused (st_vaults s) <> PAUSE_LOCK /\
    c_min_lock c <= amt0 <= bal s a /\ (vault = STAKED \/ vault = FLEXIBLE) /\
    v_positions (st_vaults s) !! (a, vault, x_now (st_world s)) = None /\
    s3 = lock_result s a pa vault amt0).
  { intros s3 ->. apply orb_false_iff in Ep as [Ep1 Ep2]. apply Z.eqb_neq in Ep1, Ep2.
    exists amt. split; [done|]. split; [|split; [done|split; [done|split; [lia|split; [|split; [|done]]]]]].
    - intros ->. by rewrite Z.eqb_refl in Ee.
    - unfold vault_exists in Ev. apply orb_true_iff in Ev as [E|E]; apply Z.eqb_eq in E; auto.
    - by apply eq_None_not_Some. }
  unfold lock_state, add_flex in Hfin. destruct (vault =? FLEXIBLE) eqn:Ef.
  - apply wp_bind, wp_gets, wp_bind, wp_lift; [|done]. intros z Hz%int_add_ok. subst z. apply wp_modify.
    eapply wp_mono; [exact Hfin| |done]. intros s3 [] H3. auto.
  - apply wp_ret. eapply wp_mono; [exact Hfin| |done]. intros s3 [] H3. auto.
Qed.

Lemma sum_amounts_ok l : forall acc t, sum_amounts l acc = POk t -> t = acc + list_sum pos_amount l.
Proof.
  induction l as [|p l IH]; intros acc t; cbn; unfold list_sum; cbn.
  - intros [= <-]. lia.
  - unfold pbind. destruct (int_add acc (pos_amount p)) eqn:E; try discriminate.
    apply int_add_ok in E. subst. intros H%IH. unfold list_sum in H. lia.
Qed.

Definition unlock_result (s1 : state) (a : addr) (vault d : Z) : state :=
  with_stats s1 (fun t => vprin_add vault (- d)
    (if Nat.eqb (length (positions_of s1 a vault)) 0 then users_down vault t else t)).

Lemma unlock_inv c signer vault amount s s' a :
  c_dec c signer = Some a -> a <> ModuleA -> a <> YieldA ->
  Forall (fun p => 0 < pos_amount p) (positions_of s a vault) ->
  unlock c signer vault amount s = Ok s' tt ->
  exists amt d s1, amount = Some amt /\ (vault = FLEXIBLE -> v_ended (st_vaults s) = false) /\
    v_paused (st_vaults s) <> PAUSE_ALL /\ v_paused (st_vaults s) <> PAUSE_UNLOCK /\
    (vault = STAKED \/ vault = FLEXIBLE) /\
    0 < amt <= list_sum pos_amount (positions_of s a vault) /\
    (c_min_unlock c <= amt \/ amt = list_sum pos_amount (positions_of s a vault)) /\
    unls signer a vault (positions_of s a vault) amt s 0 d s1 /\
    s' = unlock_result s1 a vault d.
Proof.
  intros Hd Hm Hy Hpos. inv_ok. unfold unlock. apply wp_bind, wp_gets.
  destruct ((vault =? FLEXIBLE) && v_ended (st_vaults s)) eqn:Ee; [done|].
  apply wp_bind, wp_gets.
  destruct ((v_paused (st_vaults s) =? PAUSE_ALL) || (v_paused (st_vaults s) =? PAUSE_UNLOCK)) eqn:Ep; [done|].
  unfold unlock_internal. rewrite Hd. destruct amount as [amt|]; [|done].
  destruct (Z.ltb_spec 0 amt); cbn [negb]; [|done].
  destruct (vault_exists vault) eqn:Ev; [|done]. cbn [negb].
  apply wp_bind, wp_gets, wp_bind, wp_lift; [|done]. intros tot Ht%sum_amounts_ok. rewrite Z.add_0_l in Ht.
  destruct (Z.ltb_spec tot amt); [done|].
  destruct ((amt <? c_min_unlock c) && negb (tot =? amt)) eqn:Emin; [done|].
  apply wp_bind, unlock_loop_spec; auto; [lia|]. intros rem' d s1 Hu. cbn [fst snd].
  destruct (Z.eqb_spec rem' 0) as [->|]; [|done]. cbn [negb]. rewrite Z.add_0_l.
  apply wp_bind, wp_gets, wp_bind.
  assert (Hpr : forall s2 (Q : state -> unit -> Prop), Q (with_stats s2 (vprin_add vault (- d))) tt ->
    wp (decrement_vault_principal vault d) s2 Q top2).
  { intros s2 Q HQ. unfold decrement_vault_principal. apply wp_bind, wp_gets, wp_bind, wp_lift; [|done].
    intros z Hz%int_sub_ok. subst z. apply wp_modify. unfold vprin_add, vault_principal, with_stats in *.
    destruct (vault =? STAKED); [exact HQ|]. destruct (vault =? FLEXIBLE); [exact HQ|].
    by destruct s2 as [? ? ? [] ?]. }
  assert (Hgoal : exists (amt0 d : Z) (s3 : state),
    Some amt = Some amt0 /\ (vault = FLEXIBLE -> v_ended (st_vaults s) = false) /\
    v_paused (st_vaults s) <> PAUSE_ALL /\ v_paused (st_vaults s) <> PAUSE_UNLOCK /\
    (vault = STAKED \/ vault = FLEXIBLE) /\
    0 < amt0 <= list_sum pos_amount (positions_of s a vault) /\
    (c_min_unlock c <= amt0 \/ amt0 = list_sum pos_amount (positions_of s a vault)) /\
    unls signer a vault (positions_of s a vault) amt0 s 0 d s3 /\
    unlock_result s1 a vault d = unlock_result s3 a vault d).
  { apply orb_false_iff in Ep as [Ep1 Ep2]. apply Z.eqb_neq in Ep1, Ep2.
    exists amt, d, s1. split; [done|]. split; [|split; [done|split; [done|split; [|split; [lia|split; [|done]]]]]].
    - intros ->. by rewrite Z.eqb_refl in Ee.
    - unfold vault_exists in Ev. apply orb_true_iff in Ev as [E|E]; apply Z.eqb_eq in E; auto.
    - apply andb_false_iff in Emin as [E|E]; [apply Z.ltb_ge in E; auto|].
      apply negb_false_iff, Z.eqb_eq in E. right. lia. }
  assert (Hres : forall s3, s3 = unlock_result s1 a vault d -> exists (amt0 d : Z) (s4 : state),
    Some amt = Some amt0 /\ (vault = FLEXIBLE -> v_ended (st_vaults s) = false) /\
    v_paused (st_vaults s) <> PAUSE_ALL /\ v_paused (st_vaults s) <> PAUSE_UNLOCK /\
    (vault = STAKED \/ vault = FLEXIBLE) /\
    0 < amt0 <= list_sum pos_amount (positions_of s a vault) /\
    (c_min_unlock c <= amt0 \/ amt0 = list_sum pos_amount (positions_of s a vault)) /\
    unls signer a vault (positions_of s a vault) amt0 s 0 d s4 /\ s3 = unlock_result s4 a vault d).
  { intros s3 ->. exists amt, d, s1. destruct Hgoal as (amt0 & d0 & s4 & [= <-] & ? & ? & ? & ? & ? & ? & _).
    repeat (split; [done|]). done. }
  unfold unlock_result in Hres.
  destruct (Nat.eqb (length (positions_of s1 a vault)) 0); cbn [whenb].
  - apply wp_modify. apply Hpr. apply Hres. unfold users_down, with_stats.
    destruct (vault =? STAKED); [done|]. destruct (vault =? FLEXIBLE); done.
  - apply wp_ret, Hpr, Hres. done.
Qed.
