(** Positions: what lock and unlock do to the map of positions. *)
From Verif Require Export TraceP.

(** * Sorted association lists *)
Lemma sorted_unique (l l' : list (Z * position)) :
  StronglySorted zkey_le l -> StronglySorted zkey_le l' -> NoDup l.*1 -> NoDup l'.*1 ->
  (forall x, x ∈ l <-> x ∈ l') -> l = l'.
Proof.
  revert l'. induction l as [|[k p] l IH]; intros l' S S' N N' H.
  - destruct l' as [|x l']; [done|]. exfalso. assert (x ∈ @nil (Z * position)) by (apply H; left). by apply elem_of_nil in H0.
  - destruct l' as [|[k' p'] l'].
    { exfalso. assert ((k, p) ∈ @nil (Z * position)) by (apply H; left). by apply elem_of_nil in H0. }
    apply StronglySorted_inv in S as [S F]. apply StronglySorted_inv in S' as [S' F'].
    cbn in N, N'. apply NoDup_cons in N as [N1 N]. apply NoDup_cons in N' as [N1' N'].
    rewrite Forall_forall in F, F'.
    assert (Hk : k = k').
    { assert ((k, p) ∈ (k', p') :: l') as A by (apply H; left).
      assert ((k', p') ∈ (k, p) :: l) as B by (apply H; left).
      apply elem_of_cons in A as [A|A]; [congruence|]. apply elem_of_cons in B as [B|B]; [congruence|].
      apply F' in A. apply F in B. unfold zkey_le in *; cbn in *. lia. }
    subst k'.
    assert (p = p').
    { assert ((k, p) ∈ (k, p') :: l') as A by (apply H; left).
      apply elem_of_cons in A as [A|A]; [congruence|]. exfalso. apply N1'.
      by apply elem_of_list_fmap_1 with (f := fst) in A. }
    subst p'. f_equal. apply IH; auto. intros x. split; intros Hx.
    + assert (x ∈ (k, p) :: l') as A by (apply H; by right).
      apply elem_of_cons in A as [->|A]; [|done]. exfalso. apply N1. by apply elem_of_list_fmap_1 with (f := fst) in Hx.
    + assert (x ∈ (k, p) :: l) as A by (apply H; by right).
      apply elem_of_cons in A as [->|A]; [|done]. exfalso. apply N1'. by apply elem_of_list_fmap_1 with (f := fst) in Hx.
Qed.

(** * Draining positions, oldest first *)
Definition cut (p : position) (z : Z) : position :=
  mk_position (pos_principal p - down z (pos_index p)) (pos_index p) (pos_amount p - z) (pos_time p).
Fixpoint drain (rem : Z) (l : list (Z * position)) : list (Z * position) :=
  match l with
  | [] => []
  | (t, p) :: l' => if rem <=? 0 then l else
      if rem <? pos_amount p then (t, cut p rem) :: l' else drain (rem - pos_amount p) l'
  end.

Definition upos_map (a : addr) (v : Z) (p : position) (part : Z) (m : gmap (addr * Z * Z) position) :=
  if pos_amount p <=? part then delete (a, v, pos_time p) m else <[(a, v, pos_time p) := cut p part]> m.
Fixpoint take_pos (a : addr) (v : Z) (l : list position) (rem : Z) (m : gmap (addr * Z * Z) position) :=
  match l with
  | [] => m
  | p :: l => if rem =? 0 then m else take_pos a v l (rem - part_of p rem) (upos_map a v p (part_of p rem) m)
  end.

(** Lookups after draining. *)
Lemma drain_zero l : drain 0 l = l.
Proof. by destruct l as [|[t p] l]. Qed.
Lemma drain_keys l rem x : x ∈ (drain rem l).*1 -> x ∈ l.*1.
Proof.
  revert rem. induction l as [|[t p] l IH]; intros rem; cbn; [done|].
  destruct (rem <=? 0); [done|]. destruct (rem <? pos_amount p); [done|]. intros H%IH. by right.
Qed.
Lemma drain_nodup l rem : NoDup l.*1 -> NoDup (drain rem l).*1.
Proof.
  revert rem. induction l as [|[t p] l IH]; intros rem; cbn; [done|].
  intros [N1 N2]%NoDup_cons. destruct (rem <=? 0); [by constructor|].
  destruct (rem <? pos_amount p); [by constructor|]. auto.
Qed.
Lemma drain_sorted l rem : StronglySorted zkey_le l -> StronglySorted zkey_le (drain rem l).
Proof.
  revert rem. induction l as [|[t p] l IH]; intros rem; cbn; [done|].
  intros S. pose proof (StronglySorted_inv S) as [S1 F]. destruct (rem <=? 0); [done|].
  destruct (rem <? pos_amount p); [|auto]. constructor; auto.
Qed.

Lemma take_pos_other a v l rem m k : (forall p, p ∈ l -> k <> (a, v, pos_time p)) -> take_pos a v l rem m !! k = m !! k.
Proof.
  revert rem m. induction l as [|p l IH]; intros rem m H; cbn; [done|].
  destruct (rem =? 0); [done|]. rewrite IH by (intros; apply H; by right).
  assert (k <> (a, v, pos_time p)) by (apply H; by left).
  unfold upos_map. destruct (_ <=? _); [by rewrite lookup_delete_ne|by rewrite lookup_insert_ne].
Qed.

Lemma take_pos_elem a v l : forall rem m,
  0 <= rem -> NoDup l.*1 -> (forall t p, (t, p) ∈ l -> pos_time p = t /\ 0 < pos_amount p /\ m !! (a, v, t) = Some p) ->
  forall t q, t ∈ l.*1 -> take_pos a v l.*2 rem m !! (a, v, t) = Some q <-> (t, q) ∈ drain rem l.
Proof.
  induction l as [|[t0 p] l IH]; intros rem m Hrem Hnd Hl t q Ht; [by apply elem_of_nil in Ht|].
  cbn in Hnd. apply NoDup_cons in Hnd as [N1 N2].
  destruct (Hl t0 p ltac:(left)) as (Htime & Hpos & Hm0).
  cbn [fmap list_fmap take_pos drain fst snd].
  destruct (Z.eqb_spec rem 0) as [->|Hne].
  { cbn. assert (E : forall q, (t, q) ∈ (t0, p) :: l <-> m !! (a, v, t) = Some q).
    { intros q'. split.
      - intros H. by apply Hl in H as (_ & _ & ?).
      - intros H. apply elem_of_list_fmap in Ht as ([t' p'] & -> & Hin).
        pose proof (Hl _ _ Hin) as (_ & _ & Hm). cbn in *. congruence. }
    symmetry. apply E. }
  rewrite (proj2 (Z.leb_gt rem 0)) by lia.
  set (m1 := upos_map a v p (part_of p rem) m).
  assert (Hrest : forall t' p', (t', p') ∈ l -> pos_time p' = t' /\ 0 < pos_amount p' /\ m1 !! (a, v, t') = Some p').
  { intros t' p' Hin. destruct (Hl t' p' ltac:(by right)) as (? & ? & ?). split; [done|]. split; [done|].
    assert (t' <> t0) by (intros ->; apply N1; by apply elem_of_list_fmap_1 with (f := fst) in Hin).
    subst m1. unfold upos_map. rewrite Htime. destruct (_ <=? _).
    - rewrite lookup_delete_ne; [done|congruence].
    - rewrite lookup_insert_ne; [done|congruence]. }
  destruct (part_pos p rem Hpos Hrem Hne) as [Hpp _].
  assert (Hother : forall k, k = (a, v, t0) -> take_pos a v l.*2 (rem - part_of p rem) m1 !! k = m1 !! k).
  { intros k ->. apply take_pos_other. intros p' Hin. apply elem_of_list_fmap in Hin as ([t' p''] & -> & Hin).
    destruct (Hrest _ _ Hin) as (Ht' & _). cbn [snd]. rewrite Ht'. intros [= ->]. apply N1. by apply elem_of_list_fmap_1 with (f := fst) in Hin. }
  assert (Hm1 : m1 !! (a, v, t0) = if rem <? pos_amount p then Some (cut p rem) else None).
  { subst m1. unfold upos_map, part_of. rewrite Htime. destruct (Z.ltb_spec rem (pos_amount p)).
    - rewrite (proj2 (Z.leb_gt (pos_amount p) rem)) by lia. by rewrite lookup_insert.
    - rewrite Z.leb_refl. by rewrite lookup_delete. }
  cbn [fmap list_fmap fst] in Ht. apply elem_of_cons in Ht as [->|Ht].
  - rewrite Hother by done. rewrite Hm1. destruct (Z.ltb_spec rem (pos_amount p)).
    + split; [intros [= <-]; by left|]. intros H'%elem_of_cons. destruct H' as [H'|H']; [congruence|].
      exfalso. apply N1. by apply elem_of_list_fmap_1 with (f := fst) in H'.
    + split; [done|]. intros H'. exfalso. apply N1. eapply drain_keys. by apply elem_of_list_fmap_1 with (f := fst) in H'.
  - assert (t <> t0) by (intros ->; done).
    rewrite (IH (rem - part_of p rem) m1 ltac:(lia) N2 Hrest t q Ht).
    unfold part_of. destruct (Z.ltb_spec rem (pos_amount p)).
    + rewrite Z.sub_diag, drain_zero. rewrite elem_of_cons. split; [auto|]. intros [[= ? ?]|?]; done.
    + done.
Qed.

(** The entries of a user after draining. *)
Definition entries_of (m : gmap (addr * Z * Z) position) (a : addr) (v : Z) : list (Z * position) :=
  merge_sort zkey_le
    (omap (fun kv : (addr * Z * Z) * position => if decide (kv.1.1 = (a, v)) then Some (kv.1.2, kv.2) else None) (map_to_list m)).
Lemma entries_of_eq s a v : position_entries s a v = entries_of (v_positions (st_vaults s)) a v.
Proof. done. Qed.
Definition with_pos (s : state) (m : gmap (addr * Z * Z) position) : state := s <| st_vaults; v_positions := m |>.

Section entries.
Context (m : gmap (addr * Z * Z) position) (a : addr) (v : Z).
Local Definition dummy : state := mk_state (mk_bank ∅ 0 0) (mk_dollar false 0 ∅ (mk_dstats 0 0 0) ∅ ∅ ∅)
  (mk_portal "" false ∅ ∅ 0) (mk_vaults 0 false ModuleA m 0 ∅ (mk_vstats 0 0 0 0 0)) (mk_world 0 ∅ [] ∅ [] [] ∅ ∅ []).
Lemma elem_entries_of t p : (t, p) ∈ entries_of m a v <-> m !! (a, v, t) = Some p.
Proof. exact (elem_entries dummy a v t p). Qed.
Lemma entries_of_nodup : NoDup (entries_of m a v).*1.
Proof. exact (entries_nodup dummy a v). Qed.
Lemma entries_of_sorted : StronglySorted zkey_le (entries_of m a v).
Proof. exact (entries_sorted dummy a v). Qed.
End entries.

Definition pmap_wf (m : gmap (addr * Z * Z) position) : Prop :=
  forall k p, m !! k = Some p -> pos_time p = k.2 /\ 0 < pos_amount p.

Lemma take_pos_entries m a v rem : pmap_wf m -> 0 <= rem ->
  entries_of (take_pos a v (entries_of m a v).*2 rem m) a v = drain rem (entries_of m a v).
Proof.
  intros Hwf Hrem. apply sorted_unique.
  - apply entries_of_sorted.
  - apply drain_sorted, entries_of_sorted.
  - apply entries_of_nodup.
  - apply drain_nodup, entries_of_nodup.
  - intros [t q]. rewrite elem_entries_of.
    assert (Hl : forall t p, (t, p) ∈ entries_of m a v -> pos_time p = t /\ 0 < pos_amount p /\ m !! (a, v, t) = Some p).
    { intros t' p' H%elem_entries_of. destruct (Hwf _ _ H). auto. }
    destruct (decide (t ∈ (entries_of m a v).*1)) as [Ht|Ht].
    + apply take_pos_elem; auto. apply entries_of_nodup.
    + split; intros H.
      * exfalso. rewrite take_pos_other in H.
        -- apply Ht. apply elem_entries_of in H. by apply elem_of_list_fmap_1 with (f := fst) in H.
        -- intros p Hp [= ->]. apply Ht. apply elem_of_list_fmap in Hp as ([t' p'] & -> & Hp).
           destruct (Hl _ _ Hp) as (Ht' & _). cbn [snd]. rewrite Ht'. by apply elem_of_list_fmap_1 with (f := fst) in Hp.
      * exfalso. apply Ht. apply elem_of_list_fmap_1 with (f := fst) in H. by apply drain_keys in H.
Qed.

Lemma take_pos_others m a v rem k : pmap_wf m -> k.1 <> (a, v) ->
  take_pos a v (entries_of m a v).*2 rem m !! k = m !! k.
Proof. intros Hwf Hk. apply take_pos_other. intros p _ ->. done. Qed.

(** Every entry after draining comes from one before, possibly cut. *)
Lemma drain_elem l rem t q : (t, q) ∈ drain rem l ->
  (t, q) ∈ l \/ exists p z, (t, p) ∈ l /\ 0 < z < pos_amount p /\ q = cut p z.
Proof.
  revert rem. induction l as [|[t0 p] l IH]; intros rem; cbn; [by intros ?%elem_of_nil|].
  destruct (Z.leb_spec rem 0); [auto|]. destruct (Z.ltb_spec rem (pos_amount p)).
  - intros [[= -> ->]|H']%elem_of_cons.
    + right. exists p, rem. split; [by left|]. split; [lia|done].
    + left. by right.
  - intros [H'|(p' & z & H' & ?)]%IH; [left; by right|]. right. exists p', z. split; [by right|done].
Qed.

Lemma take_pos_lookup m a v rem k q : pmap_wf m -> 0 <= rem ->
  take_pos a v (entries_of m a v).*2 rem m !! k = Some q ->
  m !! k = Some q \/ exists p z, m !! k = Some p /\ 0 < z < pos_amount p /\ q = cut p z.
Proof.
  intros Hwf Hrem H. destruct (decide (k.1 = (a, v))) as [E|E].
  - destruct k as [[a' v'] t]; cbn in E; injection E as -> ->.
    apply elem_entries_of in H. rewrite take_pos_entries in H by done.
    apply drain_elem in H as [H|(p & z & H & ?)]; [left; by apply elem_entries_of|].
    right. exists p, z. split; [by apply elem_entries_of|done].
  - rewrite take_pos_others in H by done. auto.
Qed.
Lemma take_pos_wf m a v rem : pmap_wf m -> 0 <= rem -> pmap_wf (take_pos a v (entries_of m a v).*2 rem m).
Proof.
  intros Hwf Hrem k q H. apply take_pos_lookup in H as [H|(p & z & H & Hz & ->)]; auto.
  destruct (Hwf _ _ H). cbn. split; [done|lia].
Qed.

(** Draining removes exactly the amount. *)
Lemma drain_sum l rem : 0 <= rem <= list_sum (fun tp => pos_amount tp.2) l ->
  Forall (fun tp => 0 < pos_amount tp.2) l ->
  list_sum (fun tp => pos_amount tp.2) (drain rem l) = list_sum (fun tp => pos_amount tp.2) l - rem.
Proof.
  revert rem. unfold list_sum. induction l as [|[t p] l IH]; intros rem; cbn; [lia|].
  intros Hr [Hp HF]%Forall_cons. cbn in Hp. destruct (Z.leb_spec rem 0); cbn; [lia|].
  destruct (Z.ltb_spec rem (pos_amount p)); cbn; [lia|]. rewrite IH; auto; lia.
Qed.

(** * The other vault fields during an unlock *)
Lemma pay_vaults s a y : st_vaults (pay s a y) = st_vaults s.
Proof. unfold pay. by destruct (0 <? y). Qed.
Lemma pay_world s a y : st_world (pay s a y) = st_world s.
Proof. unfold pay. by destruct (0 <? y). Qed.
Lemma pay_portal s a y : st_portal (pay s a y) = st_portal s.
Proof. unfold pay. by destruct (0 <? y). Qed.
Lemma xfer_vaults s f t y : st_vaults (xfer s f t y) = st_vaults s.
Proof. unfold xfer. by destruct (0 <? y). Qed.
Lemma xfer_world s f t y : st_world (xfer s f t y) = st_world s.
Proof. unfold xfer. by destruct (0 <? y). Qed.
Lemma xfer_portal s f t y : st_portal (xfer s f t y) = st_portal s.
Proof. unfold xfer. by destruct (0 <? y). Qed.

(** Fields of the dollar module that no transfer touches. *)
Definition dside (d : dollar) := (d_paused d, d_ext_yield d, d_recipients d, d_retry d, ds_yield (d_stats d)).
Lemma pay_dside s a y : dside (st_dollar (pay s a y)) = dside (st_dollar s).
Proof. unfold pay. by destruct (0 <? y). Qed.
Lemma xfer_dside s f t y : dside (st_dollar (xfer s f t y)) = dside (st_dollar s).
Proof. unfold xfer. by destruct (0 <? y). Qed.

Lemma unl1_frame signer a v p part s s' : unl1 signer a v p part s s' ->
  v_positions (st_vaults s') = upos_map a v p part (v_positions (st_vaults s)) /\
  v_paused (st_vaults s') = v_paused (st_vaults s) /\ v_ended (st_vaults s') = v_ended (st_vaults s) /\
  v_collector (st_vaults s') = v_collector (st_vaults s) /\
  v_total_flex (st_vaults s') = v_total_flex (st_vaults s) - (if v =? FLEXIBLE then down part (pos_index p) else 0) /\
  (let t := v_stats (st_vaults s) in let t' := v_stats (st_vaults s') in
   vs_flex_principal t' = vs_flex_principal t /\ vs_flex_users t' = vs_flex_users t /\
   vs_staked_principal t' = vs_staked_principal t /\ vs_staked_users t' = vs_staked_users t) /\
  st_portal s' = st_portal s /\ st_world s' = st_world s /\ dside (st_dollar s') = dside (st_dollar s).
Proof.
  intros [Hv Hb|s2 rew y Hv Hr Hy Hyb Hb].
  - rewrite (proj2 (Z.eqb_neq v FLEXIBLE)) by done. rewrite Z.sub_0_r. repeat split.
  - subst v. rewrite Z.eqb_refl. cbn.
    assert (Hs2 : st_portal s2 = st_portal s /\ st_world s2 = st_world s /\ dside (st_dollar s2) = dside (st_dollar s) /\
      v_positions (st_vaults s2) = v_positions (st_vaults s) /\
      v_paused (st_vaults s2) = v_paused (st_vaults s) /\ v_ended (st_vaults s2) = v_ended (st_vaults s) /\
      v_collector (st_vaults s2) = v_collector (st_vaults s) /\
      v_total_flex (st_vaults s2) = v_total_flex (st_vaults s) - down part (pos_index p) /\
      v_stats (st_vaults s2) = v_stats (st_vaults s)).
    { destruct Hr as [|tot ? ? ? ?]; [repeat split|]. unfold rewarded.
      rewrite xfer_portal, xfer_world, xfer_dside, xfer_vaults. repeat split. }
    destruct Hs2 as (? & Hw & Hd & Hp & Hpa & He & Hc & Ht & Hst).
    rewrite !pay_vaults, !pay_portal, !pay_world. cbn. rewrite Hp, Hst.
    repeat (split; [done|]). rewrite <- Hd.
    transitivity (dside (st_dollar (send_result (pay (add_dist s2 rew) (pacct signer FLEXIBLE p) y) (pacct signer FLEXIBLE p) a (part + y)))); [done|].
    transitivity (dside (st_dollar (pay (add_dist s2 rew) (pacct signer FLEXIBLE p) y))); [done|].
    rewrite pay_dside. done.
Qed.

Lemma unls_frame signer a v l rem s rem' d s' : unls signer a v l rem s rem' d s' ->
  v_positions (st_vaults s') = take_pos a v l rem (v_positions (st_vaults s)) /\
  v_paused (st_vaults s') = v_paused (st_vaults s) /\ v_ended (st_vaults s') = v_ended (st_vaults s) /\
  v_collector (st_vaults s') = v_collector (st_vaults s) /\
  v_total_flex (st_vaults s') = v_total_flex (st_vaults s) - (if v =? FLEXIBLE then d else 0) /\
  (let t := v_stats (st_vaults s) in let t' := v_stats (st_vaults s') in
   vs_flex_principal t' = vs_flex_principal t /\ vs_flex_users t' = vs_flex_users t /\
   vs_staked_principal t' = vs_staked_principal t /\ vs_staked_users t' = vs_staked_users t) /\
  st_portal s' = st_portal s /\ st_world s' = st_world s /\ dside (st_dollar s') = dside (st_dollar s).
Proof.
  induction 1 as [rem s|p l s|p l rem s s1 s2 rem' d Hne H1 H2 IH].
  - cbn. assert ((if v =? FLEXIBLE then 0 else 0) = 0) as -> by (by destruct (v =? FLEXIBLE)).
    rewrite Z.sub_0_r. repeat split.
  - cbn. assert ((if v =? FLEXIBLE then 0 else 0) = 0) as -> by (by destruct (v =? FLEXIBLE)).
    rewrite Z.sub_0_r. repeat split.
  - apply unl1_frame in H1 as (Hp1 & Hpa1 & He1 & Hc1 & Ht1 & (Ha1 & Hb1 & Hcc1 & Hd1) & Hpo1 & Hw1 & Hds1).
    destruct IH as (Hp & Hpa & He & Hc & Ht & (Ha & Hb & Hcc & Hd) & Hpo & Hw & Hds).
    cbn [take_pos]. rewrite (proj2 (Z.eqb_neq rem 0)) by done.
    split; [by rewrite Hp, Hp1|]. repeat (split; [congruence|]). split.
    { rewrite Ht, Ht1. destruct (v =? FLEXIBLE); lia. }
    cbn zeta. repeat split; congruence.
Qed.
