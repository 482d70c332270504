(** Cover of what is owed to other chains: the warp account and the escrow accounts. *)
From Verif Require Import PortalP.
From Verif Require Export ExactP.

Definition hwf (k : Z * string) (v : Z) : Z := if bool_decide (k.1 = HYPERLANE) then v else 0.
Lemma waiting_fsum s : hyp_waiting s = fsum hwf (d_retry (st_dollar s)).
Proof. done. Qed.
Lemma hwf_0 k : hwf k 0 = 0.
Proof. unfold hwf. by destruct (bool_decide (k.1 = HYPERLANE)). Qed.
Lemma hw_insert m k v : fsum hwf (<[k := v]> m) = fsum hwf m - hwf k (mget m k) + hwf k v.
Proof.
  unfold mget. destruct (m !! k) as [w|] eqn:E; cbn.
  - by rewrite (fsum_insert_old _ _ _ _ w).
  - rewrite fsum_insert_fresh by done. rewrite hwf_0. lia.
Qed.
Lemma hwf_add k v w : hwf k (v + w) = hwf k v + hwf k w.
Proof. unfold hwf. destruct (bool_decide (k.1 = HYPERLANE)); lia. Qed.
Lemma hw_addz m k z : fsum hwf (addz k z m) = fsum hwf m + hwf k z.
Proof. unfold addz. rewrite hw_insert, hwf_add. lia. Qed.
Lemma hw_delete m k : fsum hwf (delete k m) = fsum hwf m - hwf k (mget m k).
Proof.
  unfold mget. destruct (m !! k) as [w|] eqn:E; cbn.
  - rewrite (fsum_delete _ m _ w) by done. lia.
  - rewrite fsum_delete_none by done. rewrite hwf_0. lia.
Qed.
Lemma hw_del s k : enonneg s -> fsum hwf (d_retry (st_dollar (del_retry s k))) = fsum hwf (d_retry (st_dollar s)) - hwf k (retry s k).
Proof.
  intros [Hn _]. unfold del_retry. destruct (Z.ltb_spec 0 (retry s k)); cbn.
  - by rewrite hw_delete.
  - assert (retry s k = 0) as -> by (specialize (Hn k); lia). rewrite hwf_0. lia.
Qed.

(** * What is left over *)
Definition owed (s : state) : Z := hyp_collateral s + hyp_waiting s.
Definition wgap (s : state) : Z := bal s WarpA - owed s.
Definition igap (c : config) (ch : string) (s : state) : Z :=
  bal s (escrow ch) - usdn_in_flight c s ch - usdn_arrived c s ch - retry s (IBC, ch).
Record crel (P : Prop) (c : config) (s s' : state) : Prop := {
  cr_warp : P -> wgap s <= wgap s';
  cr_ibc : forall ch, igap c ch s <= igap c ch s';
  cr_pos : enonneg s'
}.
Lemma crel_trans P c s s' s'' : crel P c s s' -> crel P c s' s'' -> crel P c s s''.
Proof.
  intros [A1 A2 A3] [B1 B2 B3]. constructor; [| |done].
  - intros H. specialize (A1 H). specialize (B1 H). lia.
  - intros ch. specialize (A2 ch). specialize (B2 ch). lia.
Qed.
Lemma crel_refl P c s : enonneg s -> crel P c s s.
Proof. intros. constructor; [lia|intros; lia|done]. Qed.
Definition covers (s s' : state) : Prop := bal s WarpA <= bal s' WarpA /\ forall ch, bal s (escrow ch) <= bal s' (escrow ch).
Lemma crel_same P c s s' : eside s' = eside s -> covers s s' -> enonneg s -> crel P c s s'.
Proof.
  intros E [B1 B2] Hn. pose proof (er_pos _ _ _ _ (same_rel True c s s' E Hn)) as Hp.
  destruct (eside_parts _ _ E) as (E1 & E2 & E3 & E4 & E5 & E6 & E7 & E8).
  constructor; [| |done].
  - intros _. unfold wgap, owed, hyp_collateral, hyp_waiting. rewrite E2, E6. lia.
  - intros ch. unfold igap, usdn_in_flight, usdn_arrived, retry. rewrite E2, E4, E5. specialize (B2 ch). lia.
Qed.
Lemma upds_covers c i s s' : upds c i s s' -> good_collector s -> covers s s'.
Proof. intros H Hg. destruct (upds_others _ _ _ _ H Hg) as [HB _]. split; [by apply HB|]. intros ch. by apply HB. Qed.

(** * IBC channels *)
Lemma carried_packet c ch chan rc a z : usdn_carried c ch (mk_packet transfer_port chan (Some (mk_ft (c_denom c) (Some z) a rc))) =
  if decide (chan = ch) then z else 0.
Proof. unfold usdn_carried. cbn. rewrite (bool_decide_true (c_denom c = c_denom c)) by done. rewrite andb_true_r. case_decide; [by rewrite bool_decide_true|by rewrite bool_decide_false]. Qed.
Lemma hwf_ibc ch z : hwf (IBC, ch) z = 0.
Proof. done. Qed.
Lemma escrow_inj ch ch' : escrow ch = escrow ch' -> ch = ch'.
Proof. unfold escrow. by intros [=]. Qed.

Lemma claim_ibc_one_cover P c x cr s : codec_ok c -> enonneg s ->
  wp (claim_ibc_one c x cr) s (fun s' _ => crel P c s s') (fun s' _ => crel P c s s').
Proof.
  intros Hco Hn.
  enough (wp (claim_ibc_one c x cr) s (fun s' _ => enonneg s' -> crel P c s s') (fun s' _ => enonneg s' -> crel P c s s')) as W.
  { eapply wp_mono; [apply (wp_conj _ _ _ _ _ _ W (claim_ibc_one_rel c x cr s Hco Hn))| |]; cbn beta; intros s' a [H1 H2]; apply H1, (er_pos _ _ _ _ H2). }
  destruct cr as [chan rc].
  apply (claim_ibc_one_spec c x chan rc s _ _ _ _ eq_refl eq_refl); cbn zeta.
  4:{ intros. by apply crel_refl. }
  all: fold (escrow chan); set (esc := escrow chan) in *; pose proof (yield_of_nonneg s esc) as Hy; set (y := yield_of s esc) in *;
    pose proof (proj1 Hn (IBC, chan)) as Hr; set (r := retry s (IBC, chan)) in *;
    set (s1 := pay s esc y); assert (E1 : eside s1 = eside s) by apply eside_pay;
    assert (Hn1 : enonneg s1) by (eapply (er_pos True c s); by apply same_rel);
    destruct (eside_parts _ _ E1) as (_ & D2 & _ & D4 & D5 & D6 & _ & _);
    set (s2 := del_retry s1 (IBC, chan));
    assert (Er : forall j, retry s2 j = if decide (j = (IBC, chan)) then 0 else retry s j)
      by (intros j; subst s2; rewrite retry_del by done; case_decide; [done|]; unfold retry; by rewrite D2);
    assert (Ew : fsum hwf (d_retry (st_dollar s2)) = fsum hwf (d_retry (st_dollar s)))
      by (subst s2; rewrite hw_del by done; rewrite hwf_ibc, D2; lia);
    assert (Ed : st_world s2 = st_world s) by (subst s2; destruct (del_frame s1 (IBC, chan)) as (_ & _ & ->); subst s1; by rewrite pay_world);
    assert (EB : forall a, bal s2 a = bal s1 a) by (intros; subst s2; unfold del_retry; by destruct (0 <? _));
    assert (EB1 : bal s1 WarpA = bal s WarpA) by (subst s1; rewrite bal_pay by done; unfold ind; rewrite !decide_False by done; lia);
    assert (EB2 : forall ch, bal s1 (escrow ch) = bal s (escrow ch) + if decide (chan = ch) then y else 0)
      by (intros ch; subst s1; rewrite bal_pay by done; unfold ind; rewrite decide_False by done; subst esc;
          destruct (decide (chan = ch)) as [->|]; [rewrite decide_True by done; lia|rewrite decide_False by (intros ?%escrow_inj; congruence); lia]).
  - intros Hle _ Hpos. assert (r = 0) by lia. assert (y = 0) by lia. constructor; [| |done].
    + intros _. unfold wgap, owed, hyp_collateral. rewrite !waiting_fsum, Ew, Ed, EB, EB1. lia.
    + intros ch. unfold igap, usdn_in_flight, usdn_arrived. rewrite Ed, Er, EB, EB2. unfold r in *.
      destruct (decide (chan = ch)) as [<-|Hne]; [rewrite decide_True by done; lia|rewrite decide_False by congruence; lia].
  - intros Hp _ _ _ Hpos. constructor; [| |done].
    + intros _. unfold wgap, owed, hyp_collateral. rewrite !waiting_fsum. cbn [add_ext push st_dollar st_world].
      change (bal (add_ext (push ?a _) _ _)) with (bal a). rewrite bal_send. 
      assert (ind (WarpA = esc) (y + r) = 0) as -> by (unfold ind; rewrite decide_False by done; done).
      cbn. rewrite Ew, Ed, EB, EB1. lia.
    + intros ch. unfold igap, usdn_in_flight, usdn_arrived.
      change (bal (add_ext (push ?a _) _ _)) with (bal a). rewrite bal_send.
      change (retry (add_ext (push (send_result s2 ?a ?b ?d) ?p) ?k ?z) (IBC, ch)) with (retry s2 (IBC, ch)).
      cbn. rewrite list_sum_app, list_sum_one. unfold yield_packet. rewrite carried_packet, Ed, Er, EB, EB2.
      destruct (decide (chan = ch)) as [->|Hne]; [rewrite decide_True by done; subst r; lia|rewrite decide_False by congruence; lia].
  - intros s3 Hp _ H3 Hpos.
    assert (F : st_world s3 = st_world s2 /\ d_retry (st_dollar s3) = d_retry (st_dollar s2) /\ forall a, bal s3 a = bal s2 a).
    { destruct H3 as [->|[_ ->]]; [done|]. split; [done|]. split; [done|]. intros a. rewrite bal_send. unfold ind. case_decide; lia. }
    destruct F as (F1 & F2 & F3). constructor; [| |done].
    + intros _. unfold wgap, owed, hyp_collateral. rewrite !waiting_fsum.
      change (bal (add_ext (add_retry ?a _ _) _ _)) with (bal a).
      change (d_retry (st_dollar (add_ext (add_retry ?a ?k ?z) _ _))) with (addz k z (d_retry (st_dollar a))).
      change (st_world (add_ext (add_retry ?a _ _) _ _)) with (st_world a).
      rewrite hw_addz, hwf_ibc, F2, F1, F3, Ew, Ed, EB, EB1. lia.
    + intros ch. unfold igap, usdn_in_flight, usdn_arrived.
      change (bal (add_ext (add_retry ?a _ _) _ _)) with (bal a).
      change (st_world (add_ext (add_retry ?a _ _) _ _)) with (st_world a).
      change (retry (add_ext (add_retry s3 ?k ?z) _ _) (IBC, ch)) with (mget (addz k z (d_retry (st_dollar s3))) (IBC, ch)).
      rewrite mget_addz, F2. change (mget (d_retry (st_dollar s2)) (IBC, ch)) with (retry s2 (IBC, ch)).
      rewrite F1, Ed, F3, Er, EB, EB2.
      destruct (decide (chan = ch)) as [->|Hne]; [rewrite !decide_True by done; subst r; lia|rewrite !decide_False by congruence; lia].
Qed.
Lemma ibc_loop_cover P c x l : codec_ok c -> forall s, enonneg s ->
  wp (for_each (claim_ibc_one c x) l) s (fun s' _ => crel P c s s') (fun s' _ => crel P c s s').
Proof.
  intros Hco. induction l as [|cr l IH]; intros s Hn; cbn [for_each]; [by apply crel_refl|].
  apply wp_bind. eapply wp_mono; [by apply (claim_ibc_one_cover P)| |done].
  intros s1 [] R1. eapply wp_mono; [apply IH, (cr_pos _ _ _ _ R1)| |]; intros s2 ? R2; by eapply crel_trans.
Qed.

(** * Hyperlane routes *)
Definition atomic_hyp (x : oracle) : Prop := forall id, o_hyp x id <> XFail.
(** [claim_hyp_one_spec] when dispatches are all or nothing. *)
Lemma claim_hyp_one_atomic c x total y h s (Q : state -> unit -> Prop) (E : state -> err -> Prop) :
  atomic_hyp x ->
  let k := (HYPERLANE, hr_id h) in
  let s2 := del_retry s k in
  let r := retry s k in
  (forall q, yield_portion (hr_collateral h) total y = POk q ->
   (q + r <= 0 -> Q s2 tt) /\
   (0 < q + r -> forall d rc,
     Q (add_ext (dispatch (set_token (send_result s2 WarpA WarpA (q + r)) (hr_token h)
           (hr_collateral h + (q + r))) (mk_hypmsg WarpA (hr_token h) d rc (q + r))) k q) tt) /\
   (0 < q + r -> Q (add_ext (add_retry s2 k (q + r)) k q) tt) /\
   forall e, E s2 e) ->
  wp (claim_hyp_one c x total y h) s Q E.
Proof.
  intros Hat k s2 r H. unfold claim_hyp_one. apply wp_bind, wp_lift.
  2:{ intros e He. by apply yield_portion_err in He. }
  intros q Hq. destruct (H q Hq) as (HQ0 & HQ1 & HQ2 & HE). clear H.
  apply wp_bind, retry_remove_spec. fold k s2 r. apply wp_bind, wp_lift.
  2:{ intros e He. by apply int_add_err in He. }
  intros z Hz%int_add_ok. subst z.
  destruct (Z.ltb_spec 0 (q + r)); cbn [negb]; [|apply wp_ret, HQ0; lia].
  unfold get_router. apply wp_bind, wp_bind, wp_gets.
  destruct (default [] (x_routers (st_world s2) !! hr_token h)) as [|d [|]]; cbn [default from_option id].
  1,3: apply wp_fail, HE.
  apply wp_ret. destruct (c_hex c (hr_recipient h)) as [rcb|] eqn:Ex; [|apply wp_fail, HE].
  apply wp_bind, wp_try. apply warp_transfer_spec; [lia|done|..].
  - intros Hb Ho. cbn [negb whenb]. apply wp_bind, wp_ret, increment_ext_spec. auto.
  - intros _. cbn [negb whenb]. apply wp_bind, increment_retry_spec, increment_ext_spec. auto.
  - intros _ Ho. by apply Hat in Ho.
Qed.

(** Tokens are at least what they were when the routes were collected. *)
Definition grown (T : gmap Z Z) (s : state) : Prop :=
  forall t v, T !! t = Some v -> exists w, x_tokens (st_world s) !! t = Some w /\ v <= w.
Definition portion (total y : Z) (h : hyp_route) : Z := hr_collateral h * e18 / total * y / e18.
Lemma set_token_owed s tok col w v : x_tokens (st_world s) !! tok = Some w -> col <= w ->
  map_sum (<[tok := col + v]> (x_tokens (st_world s))) <= hyp_collateral s + v.
Proof.
  intros H Hle. unfold hyp_collateral. change (@map_sum) with (@msum). rewrite msum_insert. unfold mget. rewrite H. cbn. lia.
Qed.
Lemma claim_hyp_one_owed T c x total y h s : atomic_hyp x -> enonneg s -> 0 < total -> 0 <= y -> 0 <= hr_collateral h ->
  T !! hr_token h = Some (hr_collateral h) -> grown T s ->
  wp (claim_hyp_one c x total y h) s
    (fun s' _ => enonneg s' -> owed s' <= owed s + portion total y h /\ grown T s' /\ bal s' WarpA = bal s WarpA)
    (fun s' _ => enonneg s' -> owed s' <= owed s /\ bal s' WarpA = bal s WarpA).
Proof.
  intros Hat Hn Ht Hy Hc HT Hg. apply claim_hyp_one_atomic; [done|]. cbn zeta. set (k := (HYPERLANE, hr_id h)). set (s2 := del_retry s k).
  intros q Hq. pose proof (portion_nonneg _ _ _ _ Hc Ht Hy Hq) as Hq0. apply portion_exact in Hq as ->; [|done..]. fold (portion total y h).
  fold (portion total y h) in Hq0. set (q := portion total y h) in *. pose proof (proj1 Hn k) as Hr. set (r := retry s k) in *.
  assert (Ew : hyp_waiting s2 = hyp_waiting s - r) by (rewrite !waiting_fsum; subst s2; by rewrite hw_del).
  assert (Ed : st_world s2 = st_world s) by (subst s2; by destruct (del_frame s k) as (_ & _ & ->)).
  assert (EB : forall a, bal s2 a = bal s a) by (intros; subst s2; unfold del_retry; by destruct (0 <? _)).
  assert (Eo : owed s2 = owed s - r) by (unfold owed, hyp_collateral; rewrite Ew, Ed; lia).
  split; [|split; [|split]].
  - intros Hle Hn'. split; [lia|]. split; [|by apply EB]. intros t v Hv. rewrite Ed. by apply Hg.
  - intros Hp d rc Hn'. destruct (Hg _ _ HT) as (w & Hw & Hle).
    assert (Htok : forall d', x_tokens (st_world (add_ext (dispatch (set_token (send_result s2 WarpA WarpA (q + r)) (hr_token h) (hr_collateral h + (q + r))) d') k q))
      = <[hr_token h := hr_collateral h + (q + r)]> (x_tokens (st_world s))) by (intros; cbn; by rewrite Ed).
    split; [|split].
    + unfold owed. unfold hyp_collateral at 1. rewrite Htok.
      change (hyp_waiting (add_ext (dispatch (set_token (send_result s2 WarpA WarpA ?z) ?t ?v) ?m) k q)) with (hyp_waiting s2).
      pose proof (set_token_owed _ _ _ _ (q + r) Hw Hle). lia.
    + intros t v Hv. rewrite Htok. destruct (decide (t = hr_token h)) as [->|Hne].
      * rewrite lookup_insert. exists (hr_collateral h + (q + r)). split; [done|]. assert (v = hr_collateral h) by congruence. lia.
      * rewrite lookup_insert_ne by done. by apply Hg.
    + change (bal (add_ext (dispatch (set_token ?a _ _) _) _ _)) with (bal a). rewrite bal_send, EB. unfold ind. case_decide; lia.
  - intros Hp Hn'. split; [|split; [|by apply EB]].
    + unfold owed. change (hyp_collateral (add_ext (add_retry s2 ?a ?b) _ _)) with (hyp_collateral s2).
      rewrite (waiting_fsum (add_ext _ _ _)).
      change (d_retry (st_dollar (add_ext (add_retry ?a ?k ?z) _ _))) with (addz k z (d_retry (st_dollar a))).
      rewrite hw_addz, <- waiting_fsum. assert (hwf k (q + r) = q + r) as -> by done. unfold owed in Eo. lia.
    + intros t v Hv. change (st_world (add_ext (add_retry ?a _ _) _ _)) with (st_world a). rewrite Ed. by apply Hg.
  - intros e Hn'. split; [lia|by apply EB].
Qed.
Lemma hyp_loop_owed T c x total y rs : atomic_hyp x -> 0 < total -> 0 <= y -> forall s, enonneg s -> Forall (proper_route c s) rs ->
  Forall (fun h => T !! hr_token h = Some (hr_collateral h)) rs -> grown T s ->
  wp (for_each (claim_hyp_one c x total y) rs) s
    (fun s' _ => owed s' <= owed s + list_sum (portion total y) rs /\ bal s' WarpA = bal s WarpA)
    (fun s' _ => owed s' <= owed s + list_sum (portion total y) rs /\ bal s' WarpA = bal s WarpA).
Proof.
  intros Hat Ht Hy. induction rs as [|h rs IH]; intros s Hn Hf HT Hg; cbn [for_each].
  - apply wp_ret. change (list_sum _ []) with 0. split; [lia|done].
  - apply Forall_cons in Hf as [(C1 & C2 & b & C3 & C4) Hf]. apply Forall_cons in HT as [HT1 HT].
    assert (Hp : 0 <= list_sum (portion total y) rs).
    { clear - Hf Ht Hy. induction Hf as [|h l (C1 & _) _ IH]; [done|]. change (list_sum ?f (h :: l)) with (f h + list_sum f l).
      assert (0 <= portion total y h); [|lia]. unfold portion. pose proof (Z.div_pos (hr_collateral h * e18) total ltac:(unfold e18; lia) Ht).
      apply Z.div_pos; [nia|done]. }
    assert (Hp1 : 0 <= portion total y h).
    { unfold portion. pose proof (Z.div_pos (hr_collateral h * e18) total ltac:(unfold e18; lia) Ht). apply Z.div_pos; [nia|done]. }
    change (list_sum ?f (h :: rs)) with (f h + list_sum f rs).
    apply wp_bind. eapply wp_mono; [apply (wp_conj _ _ _ _ _ _ (claim_hyp_one_owed T c x total y h s Hat Hn Ht Hy C1 HT1 Hg)
       (claim_hyp_one_rel c x total y h s b Hn C1 Ht Hy C3 C4 C2))| |]; cbn beta.
    + intros s1 [] [H1 [H2 _]]. pose proof (er_pos _ _ _ _ H2) as Hn1. destruct (H1 Hn1) as (G1 & G2 & G3).
      eapply wp_mono; [apply IH; [done| |done|done]| |]; cbn beta.
      * eapply Forall_impl; [exact Hf|]. intros h' (F1 & F2 & F3). split; [done|]. split; [|done]. by rewrite (er_rec _ _ _ _ H2).
      * intros s2 _ [I1 I2]. split; [lia|congruence].
      * intros s2 _ [I1 I2]. split; [lia|congruence].
    + intros s1 e [H1 H2]. destruct (H1 (er_pos _ _ _ _ H2)) as [G1 G2]. split; [lia|done].
Qed.
Lemma portions_bound total y rs : 0 < total -> 0 <= y -> (forall h, h ∈ rs -> 0 <= hr_collateral h) ->
  list_sum (portion total y) rs * e18 * total <= list_sum hr_collateral rs * e18 * y.
Proof.
  intros Ht Hy. induction rs as [|h rs IH]; intros Hc; [done|].
  change (list_sum ?f (h :: rs)) with (f h + list_sum f rs). specialize (IH ltac:(intros h' H'; apply Hc; by right)).
  assert (portion total y h * e18 * total <= hr_collateral h * e18 * y); [|lia]. unfold portion.
  set (d := hr_collateral h * e18 / total). assert (D1 : d * total <= hr_collateral h * e18) by (subst d; pose proof (Z.mul_div_le (hr_collateral h * e18) total Ht); lia).
  assert (D2 : d * y / e18 * e18 <= d * y) by (pose proof (Z.mul_div_le (d * y) e18 ltac:(done)); lia).
  clearbody d. assert (d * y / e18 * e18 * total <= d * y * total) by (apply Z.mul_le_mono_nonneg_r; lia). nia.
Qed.
(** Hyperlane routes leave IBC alone. *)
Definition ibc_same (s s' : state) : Prop :=
  x_inflight (st_world s') = x_inflight (st_world s) /\ x_acked (st_world s') = x_acked (st_world s) /\
  (forall ch, retry s' (IBC, ch) = retry s (IBC, ch)) /\ forall ch, bal s' (escrow ch) = bal s (escrow ch).
Lemma ibc_same_igap c ch s s' : ibc_same s s' -> igap c ch s' = igap c ch s.
Proof. intros (E1 & E2 & E3 & E4). unfold igap, usdn_in_flight, usdn_arrived. by rewrite E1, E2, E3, E4. Qed.
Lemma hyp_one_ibc c x total y h s : enonneg s ->
  wp (claim_hyp_one c x total y h) s (fun s' _ => ibc_same s s') (fun s' _ => ibc_same s s').
Proof.
  intros Hn. apply claim_hyp_one_spec. cbn zeta. set (k := (HYPERLANE, hr_id h)). set (s2 := del_retry s k).
  assert (E : ibc_same s s2).
  { subst s2. destruct (del_frame s k) as (_ & _ & Ed). split; [by rewrite Ed|]. split; [by rewrite Ed|]. split.
    - intros ch. rewrite retry_del by done. by rewrite decide_False.
    - intros ch. unfold del_retry. by destruct (0 <? _). }
  assert (EB : forall s3 z ch, bal s3 (escrow ch) = bal s2 (escrow ch) -> bal (send_result s3 WarpA WarpA z) (escrow ch) = bal s2 (escrow ch)).
  { intros s3 z ch H3. rewrite bal_send, H3. unfold ind. rewrite decide_False by done. lia. }
  destruct E as (E1 & E2 & E3 & E4). intros q _. split; [done|]. split; [|split; [|done]].
  - intros _ _ _ d rc _ _. split; [done|]. split; [done|]. split; [done|]. intros ch.
    change (bal (add_ext (dispatch (set_token ?a _ _) _) _ _)) with (bal a). rewrite EB; [|done]. apply E4.
  - intros s3 _ H3.
    assert (F : x_inflight (st_world s3) = x_inflight (st_world s2) /\ x_acked (st_world s3) = x_acked (st_world s2) /\
      d_retry (st_dollar s3) = d_retry (st_dollar s2) /\ forall ch, bal s3 (escrow ch) = bal s2 (escrow ch)).
    { destruct H3 as [->|[_ ->]]; [done|]. split; [done|]. split; [done|]. split; [done|]. intros ch.
      change (bal (set_token ?a _ _)) with (bal a). by apply EB. }
    destruct F as (F1 & F2 & F3 & F4). split; [by rewrite <- E1|]. split; [by rewrite <- E2|]. split.
    + intros ch. change (retry (add_ext (add_retry s3 ?k ?z) _ _) (IBC, ch)) with (mget (addz k z (d_retry (st_dollar s3))) (IBC, ch)).
      rewrite mget_addz, decide_False by done. rewrite F3, Z.add_0_r. apply E3.
    + intros ch. change (bal (add_ext (add_retry ?a _ _) _ _)) with (bal a). by rewrite F4.
Qed.
Lemma ibc_same_trans s s' s'' : ibc_same s s' -> ibc_same s' s'' -> ibc_same s s''.
Proof.
  intros (A1 & A2 & A3 & A4) (B1 & B2 & B3 & B4). split; [congruence|]. split; [congruence|].
  split; intros ch; [rewrite B3; apply A3|rewrite B4; apply A4].
Qed.
Lemma hyp_loop_ibc c x total y rs : 0 < total -> 0 <= y -> forall s, enonneg s -> Forall (proper_route c s) rs ->
  wp (for_each (claim_hyp_one c x total y) rs) s (fun s' _ => ibc_same s s') (fun s' _ => ibc_same s s').
Proof.
  intros Ht Hy. induction rs as [|h rs IH]; intros s Hn Hf; cbn [for_each]; [by apply wp_ret|].
  apply Forall_cons in Hf as [(C1 & C2 & b & C3 & C4) Hf].
  apply wp_bind. eapply wp_mono; [apply (wp_conj _ _ _ _ _ _ (hyp_one_ibc c x total y h s Hn) (claim_hyp_one_rel c x total y h s b Hn C1 Ht Hy C3 C4 C2))| |]; cbn beta.
  - intros s1 [] [H1 [H2 _]]. eapply wp_mono; [apply IH; [apply (er_pos _ _ _ _ H2)|]| |]; cbn beta.
    + eapply Forall_impl; [exact Hf|]. intros h' (F1 & F2 & F3). split; [done|]. split; [|done]. by rewrite (er_rec _ _ _ _ H2).
    + intros s2 _ I. by eapply ibc_same_trans.
    + intros s2 _ I. by eapply ibc_same_trans.
  - by intros s1 e [H1 _].
Qed.

Lemma routes_tokens c s l rs : Forall2 (route_of c s) l rs -> Forall (fun h => x_tokens (st_world s) !! hr_token h = Some (hr_collateral h)) rs.
Proof. induction 1 as [|ir h l rs (_ & _ & H & _) _ IH]; constructor; auto. Qed.
Lemma wp_imp {A} (P : Prop) (m : M A) s (Q : state -> A -> Prop) (E : state -> err -> Prop) :
  (P -> wp m s Q E) -> wp m s (fun s' a => P -> Q s' a) (fun s' e => P -> E s' e).
Proof. unfold wp. destruct (m s); auto. Qed.
Lemma ext_hyp_cover c x s : enonneg s ->
  wp (claim_external_hyp c x) s (fun s' _ => crel (atomic_hyp x) c s s') (fun s' _ => crel (atomic_hyp x) c s s').
Proof.
  intros Hn.
  enough (wp (claim_external_hyp c x) s (fun s' _ => (atomic_hyp x -> wgap s <= wgap s') /\ forall ch, igap c ch s <= igap c ch s')
     (fun s' _ => (atomic_hyp x -> wgap s <= wgap s') /\ forall ch, igap c ch s <= igap c ch s')) as W.
  { eapply wp_mono; [apply (wp_conj _ _ _ _ _ _ W (ext_hyp_rel c x s Hn))| |]; cbn beta; intros s' a [[H1 H2] H3]; (constructor; [done|done|apply (er_pos _ _ _ _ H3)]). }
  unfold claim_external_hyp. apply wp_bind, wp_gets, wp_bind, claim_module_spec.
  2:{ intros. split; [lia|intros; lia]. }
  intros _. pose proof (yield_of_nonneg s WarpA) as Hy. set (y := yield_of s WarpA) in *. set (s1 := pay s WarpA y).
  assert (E1 : eside s1 = eside s) by apply eside_pay.
  assert (Hn1 : enonneg s1) by (eapply (er_pos True c s); by apply same_rel).
  assert (B1 : bal s1 WarpA = bal s WarpA + y) by (subst s1; rewrite bal_pay by done; unfold ind; rewrite decide_False, decide_True by done; lia).
  assert (B2 : forall ch, bal s1 (escrow ch) = bal s (escrow ch)).
  { intros ch. subst s1. rewrite bal_pay by done. unfold ind. rewrite !decide_False by done. lia. }
  destruct (eside_parts _ _ E1) as (_ & D2 & D3 & D4 & D5 & D6 & _ & _).
  assert (O1 : owed s1 = owed s) by (unfold owed, hyp_collateral, hyp_waiting; by rewrite D2, D6).
  assert (I1 : forall ch, igap c ch s1 = igap c ch s).
  { intros ch. unfold igap, usdn_in_flight, usdn_arrived, retry. by rewrite B2, D4, D5, D2. }
  assert (C1 : (atomic_hyp x -> wgap s <= wgap s1) /\ forall ch, igap c ch s <= igap c ch s1).
  { split; [intros _; unfold wgap; lia|]. intros ch. rewrite I1. lia. }
  destruct (Z.ltb_spec 0 y); cbn [negb]; [|by apply wp_ret].
  apply wp_bind. eapply wp_mono; [apply collect_routes_ok| |]; cbn beta; [|intros ? ? ->; done].
  intros s2 [tot rs] (-> & H1 & H2). cbn [fst snd] in *. destruct (Z.ltb_spec 0 tot); cbn [negb]; [|by apply wp_ret].
  pose proof (routes_tokens _ _ _ _ H1) as HT.
  apply routes_proper in H1 as [H1 H3]; [|done|].
  2:{ intros id rc Hin. rewrite D3. by apply elem_recipients. }
  assert (HP : list_sum (portion tot y) rs <= y).
  { assert (PB : list_sum (portion tot y) rs * e18 * tot <= list_sum hr_collateral rs * e18 * y).
    { apply portions_bound; [done|lia|]. intros h Hh. rewrite Forall_forall in H1. by apply H1. }
    rewrite Z.add_0_l in H2. rewrite <- H2 in PB. clear - PB H0. unfold e18 in PB. nia. }
  assert (W1 := wp_imp (atomic_hyp x) _ s1 _ _ (fun Hat => hyp_loop_owed (x_tokens (st_world s1)) c x tot y rs Hat H0 Hy s1 Hn1 H1 HT
    ltac:(intros t v Hv; exists v; split; [done|lia]))).
  eapply wp_mono; [apply (wp_conj _ _ _ _ _ _ W1 (hyp_loop_ibc c x tot y rs H0 Hy s1 Hn1 H1))| |]; cbn beta; intros s2 _ [G1 G2]; split.
  1,3: intros Hat; destruct (G1 Hat) as [G3 G4]; unfold wgap; rewrite G4, B1; lia.
  all: intros ch; rewrite (ibc_same_igap _ _ _ _ G2), I1; lia.
Qed.

(** * Index updates *)
Lemma season_cover P c i s : good_collector s -> enonneg s ->
  wp (if v_ended (st_vaults s) then vaults_yield_season_two c else vaults_yield_season_one c i) s
    (fun s' _ => crel P c s s') (fun s' _ => crel P c s s').
Proof.
  intros Hg Hn.
  assert (W : wp (if v_ended (st_vaults s) then vaults_yield_season_two c else vaults_yield_season_one c i) s (fun s' _ => upds c i s s') (fun s' _ => upds c i s s')).
  { destruct (v_ended (st_vaults s)) eqn:E; [apply season_two_upds; [done|apply Hg..]|by apply season_one_upds]. }
  eapply wp_mono; [apply (wp_conj _ _ _ _ _ _ W (season_eside c i s Hg))| |]; cbn beta; intros s' _ [H1 H2];
    (apply crel_same; [done|by eapply upds_covers|done]).
Qed.
Lemma update_cover c x i s : codec_ok c -> good_collector s -> 0 <= bal s ModuleA -> enonneg s ->
  wp (update_index c x i) s (fun s' _ => crel (atomic_hyp x) c s s') (fun s' _ => crel (atomic_hyp x) c s s').
Proof.
  intros Hco [Hg1 Hg2] Hb Hn. unfold update_index, get_index. apply wp_bind, wp_gets.
  destruct (i <=? current_index s); [by apply wp_fail, crel_refl|].
  assert (HA : forall n d, 0 <= n -> crel (atomic_hyp x) c s (accrued s i n d)).
  { intros n d H0. apply crel_same; [apply eside_accrued| |done]. split; [|intros ch]; rewrite bal_accrued by done; unfold ind; rewrite decide_False by done; lia. }
  apply wp_bind, (accrue_spec i s _ _ _ eq_refl); [done| |].
  2:{ intros ? _. apply HA. lia. }
  intros H0. set (n := present _ _ - _) in *. pose proof (HA n n H0) as R1. set (s1 := accrued s i n n) in *.
  assert (Hv : st_vaults s1 = st_vaults s) by (subst s1; unfold accrued; by destruct (0 <? n)).
  apply wp_bind, wp_gets, wp_bind. eapply wp_mono; [apply (season_cover (atomic_hyp x) c i s1); [split; by rewrite Hv|apply (cr_pos _ _ _ _ R1)]| |]; cbn beta.
  2:{ intros s2 e R2. by eapply crel_trans. }
  intros s2 [] R2. assert (R02 : crel (atomic_hyp x) c s s2) by (by eapply crel_trans).
  apply wp_bind. unfold claim_external_ibc. apply wp_bind, wp_gets.
  eapply wp_mono; [apply (ibc_loop_cover (atomic_hyp x) c x _ Hco s2), (cr_pos _ _ _ _ R2)| |]; cbn beta.
  2:{ intros s3 e R3. by eapply crel_trans. }
  intros s3 [] R3. assert (R03 : crel (atomic_hyp x) c s s3) by (by eapply crel_trans).
  eapply wp_mono; [apply (ext_hyp_cover c x s3), (cr_pos _ _ _ _ R03)| |]; cbn beta; intros s4 _ R4; by eapply crel_trans.
Qed.
Lemma deliver_cover c x bz s s' : chain_ok c -> wfs c s -> enonneg s -> deliver c x bz s = Ok s' tt -> crel (atomic_hyp x) c s s'.
Proof.
  intros Hc Hw Hn H. destruct (deliver_calls _ _ _ _ _ H) as (v & pl & Ha & Hh). set (s0 := consume s (va_digest v)) in *.
  assert (Hn0 : enonneg s0) by exact Hn.
  assert (R0 : crel (atomic_hyp x) c s s0) by (apply crel_same; [done|by split|done]).
  assert (Hg0 : good_collector s0) by apply Hw. assert (Hb0 : 0 <= bal s0 ModuleA) by (change (bal s0 ModuleA) with (bal s ModuleA); rewrite (wf_module _ _ Hw); lia).
  pose proof (ok_codec _ Hc) as Hco. pose proof (ok_blocked _ Hc) as Hbl.
  eapply crel_trans; [exact R0|]. revert Hh. apply (wp_ok _ _ (fun s' _ => crel (atomic_hyp x) c s0 s') top2).
  unfold handle_payload. apply wp_bind, wp_lift; [|done]. intros ty Hty. destruct ty.
  - apply wp_ret. by apply crel_refl.
  - apply wp_bind, wp_lift; [|done]. intros t Ht. destruct (negb _); [done|]. destruct (negb _); [done|].
    unfold mint. apply wp_bind.
    assert (W1 : wp (try (update_index c x (tk_index t))) s0 (fun s1 _ => crel (atomic_hyp x) c s0 s1) top2).
    { apply wp_try. eapply wp_mono; [apply (update_cover c x (tk_index t) s0 Hco Hg0 Hb0 Hn0)| |]; cbn beta; done. }
    assert (W2 : wp (try (update_index c x (tk_index t))) s0 (fun s1 _ => index_tried c (tk_index t) s0 s1) top2).
    { apply update_index_tried; auto. }
    eapply wp_mono; [apply (wp_conj _ _ _ _ _ _ W1 W2)| |done]. intros s1 b [R1 T1].
    destruct (index_tried_frame _ _ _ _ T1 Hg0) as (_ & Hb1 & _).
    apply issue_spec; [lia|done|]. intros Hamt Hbk _. eapply crel_trans; [exact R1|].
    apply crel_same; [unfold issued; by destruct (0 <? tk_amount t)| |apply (cr_pos _ _ _ _ R1)].
    assert (Hto : c_acct c (sl_bytes (tk_recipient t)) <> ModuleA) by congruence.
    split; [|intros ch]; rewrite bal_issued by done; unfold ind; case_decide; lia.
  - apply wp_bind, wp_lift; [|done]. intros [i d] Hd. destruct (negb _); [done|].
    eapply wp_mono; [apply (update_cover c x i s0 Hco Hg0 Hb0 Hn0)| |]; cbn beta; done.
Qed.

(** * All messages *)
(** Accounts that a message does not debit. *)
Definition spares (c : config) (o : op) (a : addr) : Prop :=
  forall l, allowed c o l -> match l with LSend f t _ => f = t \/ f <> a | LBurn f _ => f <> a | _ => True end.
Lemma spared_op c o s s' a : chain_ok c -> winv c s -> exec c o s = Ok s' tt -> a <> YieldA -> a <> ModuleA -> spares c o a -> bal s a <= bal s' a.
Proof.
  intros Hc Hw H Hy Hm Hs. destruct (op_trace _ _ _ _ Hc Hw H) as (ls & Ht & Ha).
  revert Ht Ha. apply (ctrace_rel (fun s s' => bal s a <= bal s' a)).
  - intros s0 s1 E. rewrite (core_bal _ _ a E). lia.
  - intros; lia.
  - intros l s0 Hl Hp. specialize (Hs l Hl). destruct l as [f t amt|h y|y yp|t y|i n d|t amt|f amt|n]; cbn [cpre capply] in *.
    + rewrite bal_send. unfold ind. destruct Hs as [->|Hf]; repeat case_decide; subst; try done; lia.
    + rewrite bal_send. unfold ind. repeat case_decide; subst; try done; lia.
    + change (bal (shiftp ?z _) a) with (bal z a). rewrite bal_send. unfold ind. repeat case_decide; subst; try done; lia.
    + rewrite !bal_send. unfold ind. destruct Hp as [? _]. repeat case_decide; subst; try done; lia.
    + rewrite bal_accrued by naive_solver. unfold ind. destruct Hp as (? & ? & ? & ?). rewrite ?decide_False by done. lia.
    + rewrite bal_issued by naive_solver lia. unfold ind. repeat case_decide; lia.
    + destruct Hp as [? [? ?]]. rewrite bal_burned by (done || lia). unfold ind. rewrite decide_False by congruence. lia.
    + apply Z.le_refl.
Qed.
Ltac spare := repeat match goal with H : _ /\ _ |- _ => destruct H | H : exists _, _ |- _ => destruct H | H : _ \/ _ |- _ => destruct H end;
  try discriminate; simplify_eq; auto; try (right; intros ->; discriminate); try (intros ->; discriminate).
Lemma spares_warp c o : match o with OpWarpRecv _ _ _ => False | _ => True end -> spares c o WarpA.
Proof. intros Ho l Hl. destruct o; cbn in Hl; try done; destruct l; try done; spare. Qed.
Lemma spares_escrow c o ch : match o with OpIbcRecv ch' _ _ => ch' <> ch | OpIbcAck _ _ | OpIbcTimeout _ => False | _ => True end -> spares c o (escrow ch).
Proof. intros Ho l Hl. destruct o; cbn in Hl; try done; destruct l; try done; spare. right. intros [=]. done. Qed.

(** Everything but the bank is as it was. *)
Lemma same_cover c o s s' : chain_ok c -> winv c s -> enonneg s -> exec c o s = Ok s' tt -> eside s' = eside s ->
  match o with OpWarpRecv _ _ _ | OpIbcAck _ _ | OpIbcTimeout _ | OpIbcRecv _ _ _ => False | _ => True end -> crel (atomic_dispatch o) c s s'.
Proof.
  intros Hc W Hn H E Ho. apply crel_same; [done| |done]. split; [|intros ch].
  - eapply spared_op; eauto; [done..|]. apply spares_warp. by destruct o.
  - eapply spared_op; eauto; [done..|]. apply spares_escrow. by destruct o.
Qed.
Definition back (o : op) (ch : string) : Z := match o with OpIbcRecv ch' _ x => if bool_decide (ch' = ch) then x else 0 | _ => 0 end.
Record cstep (c : config) (o : op) (s s' : state) : Prop := {
  cs_warp : atomic_dispatch o -> wgap s <= wgap s';
  cs_ibc : forall ch, igap c ch s - back o ch <= igap c ch s'
}.
Lemma crel_step c o s s' : crel (atomic_dispatch o) c s s' -> (forall ch, back o ch = 0) -> cstep c o s s'.
Proof. intros [A1 A2 _] Hb. constructor; [done|]. intros ch. rewrite Hb. specialize (A2 ch). lia. Qed.
Lemma failed_cover c o s p n s' : codec_ok c -> enonneg s -> x_inflight (st_world s) !! n = Some p -> failed_packet c (take_inflight s n) p s' ->
  (forall ch, back o ch = 0) -> cstep c o s s'.
Proof.
  intros Hco Hn Hp Hf Hb. unfold failed_packet in Hf. destruct (is_usdn c p) eqn:Eu.
  - destruct Hf as (a & z & rc & Hpe & Hz & Ha & ->). set (chan := pk_chan p) in *. clearbody chan. subst p. fold (escrow chan) in *.
    assert (Hy : is_yield_packet c (ibc_packet c chan rc a z) = true <-> a = escrow chan).
    { unfold is_yield_packet. cbn. rewrite (bool_decide_true (c_denom c = c_denom c)) by done. cbn. rewrite bool_decide_eq_true. split; [|by intros ->].
      intros E. pose proof (codec_roundtrip c Hco a) as R1. rewrite E, (codec_roundtrip c Hco) in R1. by injection R1. }
    assert (Hin : forall ch, list_sum (usdn_carried c ch) (delete n (x_inflight (st_world s))) = usdn_in_flight c s ch - if decide (chan = ch) then z else 0).
    { intros ch. rewrite (list_sum_delete _ _ _ _ Hp). unfold ibc_packet. rewrite carried_packet. done. }
    assert (Hbs : forall s2 b, bal s2 b = bal s b -> b <> escrow chan -> bal s b <= bal (send_result s2 (escrow chan) a z) b).
    { intros s2 b H2 Hb'. rewrite bal_send, H2. unfold ind. rewrite decide_False by done. case_decide; lia. }
    destruct (is_yield_packet c (ibc_packet c chan rc a z)) eqn:Ey.
    + destruct Hy as [Hy _]. specialize (Hy eq_refl). subst a. set (s2 := add_retry (take_inflight s n) (IBC, chan) z).
      assert (HB : forall b, bal (send_result s2 (escrow chan) (escrow chan) z) b = bal s b).
      { intros b. rewrite bal_send. change (bal s2 b) with (bal s b). unfold ind. case_decide; lia. }
      constructor.
      * intros _. unfold wgap, owed. rewrite HB. rewrite !waiting_fsum.
        change (d_retry (st_dollar (send_result s2 ?u ?v ?w))) with (addz (IBC, chan) z (d_retry (st_dollar s))). rewrite hw_addz, hwf_ibc.
        change (hyp_collateral (send_result s2 ?u ?v ?w)) with (hyp_collateral s). lia.
      * intros ch. rewrite Hb. unfold igap. rewrite HB.
        change (usdn_in_flight c (send_result s2 ?u ?v ?w) ch) with (list_sum (usdn_carried c ch) (delete n (x_inflight (st_world s)))).
        change (usdn_arrived c (send_result s2 ?u ?v ?w) ch) with (usdn_arrived c s ch).
        change (retry (send_result s2 ?u ?v ?w) (IBC, ch)) with (mget (addz (IBC, chan) z (d_retry (st_dollar s))) (IBC, ch)).
        rewrite mget_addz, Hin. change (mget (d_retry (st_dollar s)) (IBC, ch)) with (retry s (IBC, ch)).
        destruct (decide (chan = ch)) as [->|Hne]; [rewrite decide_True by done|rewrite decide_False by congruence]; lia.
    + assert (Hne : a <> escrow chan) by (intros ->; by destruct Hy as [_ Hy]; specialize (Hy eq_refl)).
      assert (Hx : external a = true) by (destruct Ha as [Ha| ->]; [done|done]).
      constructor.
      * intros _. unfold wgap. change (owed (send_result (take_inflight s n) ?u ?v ?w)) with (owed s).
        pose proof (Hbs (take_inflight s n) WarpA eq_refl ltac:(done)). lia.
      * intros ch. rewrite Hb. unfold igap.
        change (usdn_in_flight c (send_result (take_inflight s n) ?u ?v ?w) ch) with (list_sum (usdn_carried c ch) (delete n (x_inflight (st_world s)))).
        change (usdn_arrived c (send_result (take_inflight s n) ?u ?v ?w) ch) with (usdn_arrived c s ch).
        change (retry (send_result (take_inflight s n) ?u ?v ?w) (IBC, ch)) with (retry s (IBC, ch)). rewrite Hin.
        destruct (decide (chan = ch)) as [->|Hne'].
        -- rewrite bal_send. change (bal (take_inflight s n)) with (bal s). unfold ind. rewrite decide_True by done. rewrite decide_False by done. lia.
        -- pose proof (Hbs (take_inflight s n) (escrow ch) eq_refl ltac:(intros ?%escrow_inj; congruence)). lia.
  - subst s'. constructor.
    + intros _. done.
    + intros ch. rewrite Hb. unfold igap. change (retry (take_inflight s n)) with (retry s). change (bal (take_inflight s n)) with (bal s).
      change (usdn_arrived c (take_inflight s n) ch) with (usdn_arrived c s ch). unfold usdn_in_flight.
      change (x_inflight (st_world (take_inflight s n))) with (delete n (x_inflight (st_world s))).
      rewrite (list_sum_delete _ _ _ p) by done. assert (usdn_carried c ch p = 0) as ->; [|lia].
      unfold usdn_carried. unfold is_usdn in Eu. destruct (pk_data p); [|done]. by rewrite Eu, andb_false_r.
Qed.
Definition cside (s : state) := (d_retry (st_dollar s), x_inflight (st_world s), x_acked (st_world s), x_tokens (st_world s)).
Lemma cstep_same c o s s' : cside s' = cside s -> st_bank s' = st_bank s -> (forall ch, back o ch = 0) -> cstep c o s s'.
Proof.
  intros [= E1 E2 E3 E4] EB Hb. assert (HB : forall a, bal s' a = bal s a) by (intros; unfold bal; by rewrite EB). constructor.
  - intros _. unfold wgap, owed, hyp_collateral, hyp_waiting. rewrite E1, E4, HB. lia.
  - intros ch. rewrite Hb. unfold igap, usdn_in_flight, usdn_arrived, retry. rewrite E1, E2, E3, HB. lia.
Qed.
Lemma tokens_insert s t v : enonneg s -> map_sum (<[t := v]> (x_tokens (st_world s))) = hyp_collateral s - mget (x_tokens (st_world s)) t + v.
Proof. intros _. unfold hyp_collateral. change (@map_sum) with (@msum). apply msum_insert. Qed.
Lemma in_flight_push c s s' p ch : x_inflight (st_world s') = x_inflight (st_world s) ++ [p] -> usdn_in_flight c s' ch = usdn_in_flight c s ch + usdn_carried c ch p.
Proof. intros E. unfold usdn_in_flight. by rewrite E, list_sum_app, list_sum_one. Qed.
Lemma cover_op c o s s' : chain_ok c -> winv c s -> enonneg s -> exec c o s = Ok s' tt -> cstep c o s s'.
Proof.
  intros Hc W Hn H. pose proof W as [Hw Hp]. pose proof (ok_blocked _ Hc) as Hbl. pose proof (ok_codec _ Hc) as Hco.
  pose proof (wf_packets _ _ Hw) as Hpk. pose proof H as H0.
  destruct (administrative o) eqn:Ha.
  { apply admin_inv in H; [|done]. destruct o; try discriminate; cbn in H; decompose [and] H; subst s';
      try (by apply cstep_same).
    - constructor; [done|]. intros ch. cbn [back]. unfold igap. rewrite (in_flight_push c s (push s p) p) by done.
      change (bal (push s p)) with (bal s). change (retry (push s p)) with (retry s). change (usdn_arrived c (push s p)) with (usdn_arrived c s).
      assert (usdn_carried c ch p = 0) as ->; [|lia].
      match goal with E : is_usdn c p = false |- _ => revert E end. unfold usdn_carried, is_usdn. destruct (pk_data p); [|done]. intros ->. by rewrite andb_false_r.
    - constructor; [|intros ch; cbn [back]; apply Z.eq_le_incl; unfold igap; cbn; apply Z.sub_0_r].
      intros _. unfold wgap, owed. unfold hyp_collateral at 2. set (s1 := s <| st_world; x_tokens := _ |>).
      change (x_tokens (st_world s1)) with (<[token := 0]> (x_tokens (st_world s))). change (hyp_waiting s1) with (hyp_waiting s). change (bal s1) with (bal s).
      rewrite tokens_insert by done. unfold mget. rewrite H1. cbn. lia. }
  assert (HS : eside s' = eside s -> match o with OpWarpRecv _ _ _ | OpIbcAck _ _ | OpIbcTimeout _ | OpIbcRecv _ _ _ => False | _ => True end -> cstep c o s s').
  { intros E Ho. apply crel_step; [by apply same_cover|]. intros ch. by destruct o. }
  destruct o; try discriminate.
  - destruct (claim_inv' _ _ _ _ H) as (b & y & _ & _ & _ & _ & _ & ->). apply HS; [apply eside_pay|done].
  - destruct (lock_inv' _ _ _ _ _ _ Hc H) as (b & amt & _ & _ & _ & _ & _ & _ & _ & _ & ->). apply HS; [|done].
    unfold lock_result, lock_state, add_flex. by destruct (vault =? FLEXIBLE).
  - destruct (unlock_inv' _ _ _ _ _ _ Hp H) as (b & amt & d & s1 & _ & _ & _ & _ & _ & _ & _ & _ & Hu & ->).
    apply unls_frame in Hu as (_ & _ & _ & _ & _ & _ & _ & Hx & Hd). apply HS; [|done]. unfold dside in Hd. injection Hd as _ D1 D2 D3 _.
    change (eside (unlock_result s1 (AUser b) vault d)) with (eside s1). unfold eside. by rewrite Hx, D1, D2, D3.
  - apply crel_step; [|done]. exact (deliver_cover c x vaa s s' Hc Hw Hn H).
  - destruct (transfer_inv' _ _ _ _ _ _ _ _ _ (wf_module _ _ Hw) H)
      as (b & amt & pr & sender & id & _ & -> & Hamt & _ & _ & _ & _ & _ & _ & _ & _ & ->).
    apply HS; [|done]. destruct (frame_burned (bump_nonce s) (AUser b) amt) as (_ & _ & E1 & E2 & _ & E3 & _ & _ & E4). unfold eside.
    change (st_dollar (OpsP.post ?a ?b)) with (st_dollar a). rewrite E1, E2, E3. cbn. by rewrite E4.
  - destruct (op_send_inv _ _ _ _ _ _ Hbl H) as (_ & _ & _ & _ & ->). by apply HS.
  - destruct (op_multi_inv _ _ _ _ _ Hbl H) as (_ & _ & _ & _ & Hmu). apply multi_frame in Hmu as (_ & _ & Hx & [= _ _ D1 D2 D3] & _).
    apply HS; [|done]. unfold eside. by rewrite Hx, D1, D2, D3.
  - destruct (op_ibc_send_inv _ _ _ _ _ _ _ _ H) as (He & Hamt & _ & ->).
    assert (B1 : forall b, b <> from -> bal s b + (if decide (b = escrow chan) then amount else 0) = bal (send_result s from (escrow chan) amount) b).
    { intros b Hb. rewrite bal_send. unfold ind. rewrite (decide_False (P := b = from)) by done. case_decide; lia. }
    assert (N1 : forall ch, escrow ch <> from) by (intros ? E; rewrite <- E in He; discriminate).
    assert (N2 : WarpA <> from) by (intros E; rewrite <- E in He; discriminate).
    constructor.
    + intros _. unfold wgap. change (owed (push (send_result s ?a ?b ?d) ?p)) with (owed s). change (bal (push ?a _)) with (bal a).
      rewrite <- B1 by done. case_decide; lia.
    + intros ch. cbn [back]. unfold igap. rewrite (in_flight_push c s (push (send_result s from (AEscrow transfer_port chan) amount) (ibc_packet c chan receiver from amount)) (ibc_packet c chan receiver from amount)) by done. unfold ibc_packet. rewrite carried_packet.
      change (bal (push ?a _)) with (bal a). change (retry (push (send_result s ?a ?b ?d) ?p)) with (retry s).
      change (usdn_arrived c (push (send_result s ?a ?b ?d) ?p)) with (usdn_arrived c s). fold (escrow chan). rewrite <- B1 by done.
      destruct (decide (chan = ch)) as [->|Hne]; [rewrite decide_True by done; lia|rewrite decide_False by (intros ?%escrow_inj; congruence); lia].
  - destruct (op_ibc_recv_inv _ _ _ _ _ _ Hbl H) as (a & _ & _ & [[-> ->]|(Hz & _ & _ & ->)]).
    { constructor; [done|]. intros ch. cbn [back]. destruct (bool_decide _); lia. }
    fold (escrow chan) in *. constructor.
    + intros _. unfold wgap. change (owed (send_result s ?a ?b ?d)) with (owed s). rewrite bal_send. unfold ind. rewrite decide_False by done. case_decide; lia.
    + intros ch. cbn [back]. unfold igap. change (retry (send_result s ?a ?b ?d)) with (retry s).
      change (usdn_arrived c (send_result s ?a ?b ?d)) with (usdn_arrived c s). change (usdn_in_flight c (send_result s ?a ?b ?d)) with (usdn_in_flight c s).
      rewrite bal_send. unfold ind. destruct (decide (chan = ch)) as [->|Hne].
      * rewrite bool_decide_true by done. rewrite decide_True by done. case_decide; lia.
      * rewrite bool_decide_false by done. rewrite decide_False by (intros ?%escrow_inj; congruence). case_decide; lia.
  - destruct (op_ibc_ack_inv _ _ _ _ _ Hco Hpk H) as (p & Hpp & [[_ ->]|[_ Hf]]).
    + constructor; [done|]. intros ch. cbn [back]. unfold igap. change (bal (ack_ok (take_inflight s n) p)) with (bal s). change (retry (ack_ok (take_inflight s n) p)) with (retry s).
      unfold usdn_in_flight, usdn_arrived. cbn. rewrite list_sum_app, list_sum_one, (list_sum_delete _ _ _ p) by done. lia.
    + by eapply failed_cover.
  - destruct (op_ibc_timeout_inv _ _ _ _ Hco Hpk H) as (p & Hpp & Hf). by eapply failed_cover.
  - destruct (op_warp_send_inv c _ _ _ _ _ _ _ _ H) as (col & Hcol & He & Hamt & _ & ->).
    assert (N1 : forall ch, escrow ch <> from) by (intros ? E; rewrite <- E in He; discriminate).
    assert (N2 : WarpA <> from) by (intros E; rewrite <- E in He; discriminate).
    set (s1 := dispatch _ _). assert (B : forall b, bal s1 b = bal (send_result s from WarpA amount) b) by done. constructor.
    + intros _. unfold wgap, owed. change (hyp_waiting s1) with (hyp_waiting s).
      assert (hyp_collateral s1 = hyp_collateral s + amount) as ->.
      { unfold hyp_collateral at 1. change (x_tokens (st_world s1)) with (<[token := col + amount]> (x_tokens (st_world s))). rewrite tokens_insert by done.
        unfold mget. rewrite Hcol. cbn. lia. }
      rewrite B, bal_send. unfold ind. rewrite decide_False, decide_True by done. lia.
    + intros ch. cbn [back]. unfold igap. change (retry s1) with (retry s). change (usdn_in_flight c s1) with (usdn_in_flight c s).
      change (usdn_arrived c s1) with (usdn_arrived c s). rewrite B, bal_send. unfold ind. rewrite !decide_False by done. lia.
  - destruct (op_warp_recv_inv _ _ _ _ _ _ Hbl H) as (col & Hcol & ? & ? & _ & _ & ->).
    set (s1 := send_result _ _ _ _). assert (B : forall b, bal s1 b = bal (send_result s WarpA to amount) b) by done. constructor.
    + intros _. unfold wgap, owed. change (hyp_waiting s1) with (hyp_waiting s).
      assert (hyp_collateral s1 = hyp_collateral s - amount) as ->.
      { unfold hyp_collateral at 1. change (x_tokens (st_world s1)) with (<[token := col - amount]> (x_tokens (st_world s))). rewrite tokens_insert by done.
        unfold mget. rewrite Hcol. cbn. lia. }
      rewrite B, bal_send. unfold ind. rewrite decide_True by done. case_decide; lia.
    + intros ch. cbn [back]. unfold igap. change (retry s1) with (retry s). change (usdn_in_flight c s1) with (usdn_in_flight c s).
      change (usdn_arrived c s1) with (usdn_arrived c s). rewrite B, bal_send. unfold ind. rewrite decide_False by done. case_decide; lia.
Qed.

(** * Histories *)
Lemma cover_run c l : chain_ok c -> forall s, winv c s -> enonneg s ->
  (Forall atomic_dispatch l -> wgap s <= wgap (run c s l)) /\ forall ch, igap c ch s - usdn_returned c s l ch <= igap c ch (run c s l).
Proof.
  intros Hc. induction l as [|o l IH]; intros s W Hn.
  - split; [done|]. intros ch. cbn. lia.
  - rewrite run_cons. cbn [usdn_returned]. destruct (exec c o s) as [s1 []| |] eqn:E.
    + assert (step c s o = s1) as -> by (unfold step; by rewrite E).
      destruct (ext_op _ _ _ _ Hc W Hn E) as [_ _ _ Hn1]. pose proof (winv_step _ _ _ _ Hc W E) as W1.
      destruct (IH s1 W1 Hn1) as [I1 I2]. destruct (cover_op _ _ _ _ Hc W Hn E) as [C1 C2]. split.
      * intros [Ho Hl]%Forall_cons. specialize (C1 Ho). specialize (I1 Hl). lia.
      * intros ch. specialize (C2 ch). specialize (I2 ch). unfold back in C2. destruct o; try lia.
        assert (succeeds c s (OpIbcRecv chan receiver amount) = true) as -> by (unfold succeeds; by rewrite E). cbn [andb]. lia.
    + assert (step c s o = s) as -> by (unfold step; by rewrite E). destruct (IH s W Hn) as [I1 I2]. split; [by intros [_ Hl]%Forall_cons; auto|].
      intros ch. specialize (I2 ch). destruct o; try lia.
      assert (succeeds c s (OpIbcRecv chan receiver amount) = false) as -> by (unfold succeeds; by rewrite E). cbn [andb]. lia.
    + assert (step c s o = s) as -> by (unfold step; by rewrite E). destruct (IH s W Hn) as [I1 I2]. split; [by intros [_ Hl]%Forall_cons; auto|].
      intros ch. specialize (I2 ch). destruct o; try lia.
      assert (succeeds c s (OpIbcRecv chan receiver amount) = false) as -> by (unfold succeeds; by rewrite E). cbn [andb]. lia.
Qed.
Theorem warp_covered c s0 ops : chain_ok c -> fresh c s0 -> Forall atomic_dispatch ops ->
  let s := run c s0 ops in hyp_collateral s + hyp_waiting s <= bal s WarpA.
Proof.
  intros Hc Hf Ha. cbn zeta. destruct (cover_run c ops Hc s0 (winv_fresh _ _ Hf)) as [H _]; [apply (einv_fresh _ _ Hf)|].
  specialize (H Ha). assert (wgap s0 = 0) as H0.
  { destruct Hf. unfold wgap, owed, hyp_collateral, hyp_waiting, bal. by rewrite fresh_bank, fresh_tokens, fresh_retry. }
  unfold wgap, owed in *. lia.
Qed.
Theorem escrow_covered c s0 ops ch : chain_ok c -> fresh c s0 -> let s := run c s0 ops in
  usdn_in_flight c s ch + usdn_arrived c s ch + retry_of s IBC ch <= bal s (AEscrow transfer_port ch) + usdn_returned c s0 ops ch.
Proof.
  intros Hc Hf. cbn zeta. destruct (cover_run c ops Hc s0 (winv_fresh _ _ Hf)) as [_ H]; [apply (einv_fresh _ _ Hf)|].
  specialize (H ch). assert (igap c ch s0 = 0) as H0.
  { destruct Hf. unfold igap, usdn_in_flight, usdn_arrived, retry, bal. by rewrite fresh_bank, fresh_inflight, fresh_acked, fresh_retry. }
  unfold igap in *. change (retry_of ?a ?b ?d) with (retry a (b, d)). unfold escrow in *. lia.
Qed.

(** A failed packet can be refunded as long as the other chain has not returned more
    than it received. *)
Lemma carried_ge c q ch : packet_ok c q -> 0 <= usdn_carried c ch q.
Proof.
  intros Hq. unfold packet_ok in Hq. destruct (is_usdn c q) eqn:Eu.
  - destruct (Hq eq_refl) as (a & z & rc & -> & Hz & _). rewrite carried_packet. case_decide; lia.
  - unfold usdn_carried, is_usdn in *. destruct (pk_data q); [|done]. by rewrite Eu, andb_false_r.
Qed.
Lemma carried_nonneg c s ch : Forall (packet_ok c) (x_inflight (st_world s)) -> forall n p, x_inflight (st_world s) !! n = Some p ->
  usdn_carried c ch p <= usdn_in_flight c s ch.
Proof.
  intros Hf n p Hp. unfold usdn_in_flight.
  assert (H0 : Forall (fun p => 0 <= usdn_carried c ch p) (x_inflight (st_world s))).
  { eapply Forall_impl; [exact Hf|]. intros q Hq. by apply carried_ge. }
  clear Hf. revert n Hp. induction H0 as [|q l Hq Hl IH]; intros n Hp; [done|].
  change (list_sum ?f (q :: l)) with (f q + list_sum f l).
  assert (0 <= list_sum (usdn_carried c ch) l).
  { clear - Hl. induction Hl as [|x l Hx _ IH]; [done|]. change (list_sum ?f (x :: l)) with (f x + list_sum f l). lia. }
  destruct n as [|n]; cbn in Hp; [injection Hp as ->; lia|]. apply IH in Hp. lia.
Qed.
Lemma pay_run c s f t z : chain_ok c -> reachable c s -> payment_in_range s f t -> ordinary f -> ordinary t -> 0 < z <= bal s f ->
  forall s1, current_index s1 = current_index s -> (forall b, bal s1 b = bal s b) -> (forall b, prin s1 b = prin s b) ->
    send_coins f t z s1 = Ok (send_result s1 f t z) tt.
Proof.
  intros Hc Hreach [R1 R2 R3 R4] Hof Hot Hze s1 E1 E2 E3.
  pose proof (winv_reachable _ _ Hc Hreach) as [Hw _]. pose proof (wf_index _ _ Hw) as Hi.
  pose proof (proj2 (conserved c s Hc Hreach) t) as Hnb.
  pose proof (up_small z (current_index s) ltac:(lia) ltac:(lia)) as Hup.
  change unit_index with e12 in R1.
  assert (Hz12 : z * e12 < 2 ^ 200) by (unfold e12 in *; nia).
  apply send_run; [done|done|by rewrite E2|lia|].
  constructor; unfold int_range; rewrite ?E1, ?E2, ?E3.
  - clear - Hi Hz12 Hze. unfold e12 in *. lia.
  - clear - Hup Hz12 R2. lia.
  - clear - Hup Hz12 R3. lia.
  - intros _. clear - R3. lia.
  - clear - Hz12 R4 Hze Hnb. unfold e12 in *. lia.
Qed.
Theorem refund_succeeds c s0 ops n o ch a z rc : chain_ok c -> fresh c s0 -> let s := run c s0 ops in
  usdn_returned c s0 ops ch <= usdn_arrived c s ch ->
  x_inflight (st_world s) !! n = Some (mk_packet transfer_port ch (Some (mk_ft (c_denom c) (Some z) (c_enc c a) rc))) ->
  payment_in_range s (AEscrow transfer_port ch) a -> retry_of s IBC ch < 2 ^ 255 ->
  o = OpIbcTimeout n \/ o = OpIbcAck n AckError -> succeeds c s o = true.
Proof.
  intros Hc Hf s Hr Hp HP R5 Ho. pose proof (escrow_covered c s0 ops ch Hc Hf) as Hcov. cbn zeta in Hcov. fold s in Hcov.
  assert (Hreach : reachable c s) by (exists s0, ops; done).
  pose proof (winv_reachable _ _ Hc Hreach) as [Hw _]. pose proof (einv_reachable _ _ Hc Hreach) as (_ & _ & Hn & _).
  pose proof (wf_packets _ _ Hw) as Hpk. pose proof (wf_index _ _ Hw) as Hi. pose proof (ok_codec _ Hc) as Hco.
  pose proof (carried_nonneg c s ch Hpk _ _ Hp) as Hle. rewrite carried_packet, decide_True in Hle by done.
  specialize (Hn (IBC, ch)). change (retry s (IBC, ch)) with (retry_of s IBC ch) in Hn.
  eapply Forall_lookup_1 in Hpk; [|exact Hp]. destruct Hpk as (a' & z' & rc' & E & Hz & Ha).
  { unfold is_usdn. cbn. by apply bool_decide_true. }
  cbn [pk_chan] in *. injection E as <- Ee <-.
  assert (a' = a) as ->. { pose proof (codec_roundtrip c Hco a) as X. rewrite Ee, (codec_roundtrip c Hco) in X. by injection X. }
  set (e := AEscrow transfer_port ch) in *.
  assert (Hze : 0 < z <= bal s e) by lia.
  assert (Horda : ordinary a). { destruct Ha as [Ha| ->]; [|done]. split; apply external_not_module; auto. }
  pose proof (pay_run c s e a z Hc Hreach HP ltac:(done) Horda Hze) as HS.
  assert (Hz12 : z * e12 < 2 ^ 200). { destruct HP as [R1 _ _ _]. change unit_index with e12 in R1. unfold e12 in *. nia. }
  assert (HR : runs (add_amount_to_retry c (mk_packet transfer_port ch (Some (mk_ft (c_denom c) (Some z) (c_enc c a) rc)));;;
      refund c (mk_packet transfer_port ch (Some (mk_ft (c_denom c) (Some z) (c_enc c a) rc)))) (take_inflight s n) (fun _ _ => True)).
  { assert (HF : forall s1, current_index s1 = current_index s -> (forall b, bal s1 b = bal s b) -> (forall b, prin s1 b = prin s b) ->
      runs (refund c (mk_packet transfer_port ch (Some (mk_ft (c_denom c) (Some z) (c_enc c a) rc)))) s1 (fun _ _ => True)).
    { intros s1 E1 E2 E3. unfold refund. cbn [pk_data ft_amount ft_sender ft_denom pk_port pk_chan]. rewrite (codec_roundtrip c Hco), bool_decide_true by done.
      apply runs_bind. unfold new_coins. destruct (Z.ltb_spec z 0); [lia|]. apply runs_ret. unfold runs. rewrite HS; done. }
    apply runs_bind. unfold add_amount_to_retry. cbn [pk_data ft_amount ft_sender ft_denom pk_port pk_chan]. rewrite (bool_decide_true (c_denom c = c_denom c)) by done. cbn [negb].
    destruct (bool_decide _); cbn [negb]; [|by apply runs_ret, HF].
    unfold increment_retry, get_retry. apply runs_bind, runs_gets, runs_bind. eapply runs_lift.
    - apply int_chk_run. unfold int_range. change (Z.abs (retry_of s IBC ch + z) < 2 ^ 256).
      assert (z < 2 ^ 200) by (unfold e12 in Hz12; clear - Hz Hz12; lia).
      clear - Hn R5 Hz H. lia.
    - apply runs_modify. by apply HF. }
  unfold runs, bind in HR. change (take_inflight s n) with (s <| st_world; x_inflight ::= delete n |>) in HR. unfold succeeds.
  destruct Ho as [-> | ->]; cbn [exec]; unfold on_timeout, on_ack, take_packet, bind, gets, modify, ret; rewrite Hp.
  all: destruct (add_amount_to_retry c _ _) as [s1 []| |]; [|done..]; destruct (refund c _ s1) as [s2 []| |]; done.
Qed.
(** Dollars that arrived on the other chain can be brought back. *)
Theorem return_succeeds c s0 ops ch a z : chain_ok c -> fresh c s0 -> let s := run c s0 ops in
  usdn_returned c s0 ops ch + z <= usdn_arrived c s ch -> 0 < z -> ordinary_account a -> c_blocked c a = false ->
  payment_in_range s (AEscrow transfer_port ch) a -> succeeds c s (OpIbcRecv ch (c_enc c a) z) = true.
Proof.
  intros Hc Hf s Hr Hz Ha Hb HP. pose proof (escrow_covered c s0 ops ch Hc Hf) as Hcov. cbn zeta in Hcov. fold s in Hcov.
  assert (Hreach : reachable c s) by (exists s0, ops; done).
  pose proof (winv_reachable _ _ Hc Hreach) as [Hw _]. pose proof (einv_reachable _ _ Hc Hreach) as (_ & _ & Hn & _).
  pose proof (ok_codec _ Hc) as Hco.
  specialize (Hn (IBC, ch)). change (retry s (IBC, ch)) with (retry_of s IBC ch) in Hn.
  assert (Hfl : 0 <= usdn_in_flight c s ch).
  { unfold usdn_in_flight. apply list_sum_nonneg. intros p Hp. apply elem_of_list_lookup in Hp as [k Hk].
    pose proof (wf_packets _ _ Hw) as Hpk. eapply Forall_lookup_1 in Hpk; [|exact Hk]. by apply carried_ge. }
  unfold succeeds. cbn [exec]. unfold on_recv, new_coins, bind. rewrite (codec_roundtrip c Hco), Hb.
  destruct (Z.ltb_spec z 0); [lia|]. cbn [ret]. rewrite (pay_run c s _ a z Hc Hreach HP); try done. lia.
Qed.
(** Dollars can be released from a hyperlane token up to its collateral. *)
Theorem release_succeeds c s0 ops tok col a z : chain_ok c -> fresh c s0 -> Forall atomic_dispatch ops -> let s := run c s0 ops in
  x_tokens (st_world s) !! tok = Some col -> 0 < z <= col -> ordinary_account a -> c_blocked c a = false ->
  payment_in_range s WarpA a -> succeeds c s (OpWarpRecv tok a z) = true.
Proof.
  intros Hc Hf Hat s Ht Hz Ha Hb HP. pose proof (warp_covered c s0 ops Hc Hf Hat) as Hcov. cbn zeta in Hcov. fold s in Hcov.
  assert (Hreach : reachable c s) by (exists s0, ops; done).
  pose proof (einv_reachable _ _ Hc Hreach) as (_ & _ & Hn & Htn).
  assert (col <= hyp_collateral s).
  { unfold hyp_collateral. change (map_sum ?m) with (fsum (fun _ v => v) m).
    apply (fsum_elem_le (fun _ v => v) _ tok); [|done]. intros k v Hk. by eapply Htn. }
  assert (0 <= hyp_waiting s).
  { rewrite waiting_fsum. apply fsum_nonneg. intros k v Hk. specialize (Hn k). unfold retry, mget in Hn. rewrite Hk in Hn.
    unfold hwf. destruct (bool_decide _); [exact Hn|lia]. }
  unfold succeeds. cbn [exec]. unfold bind, gets, modify. destruct (Z.leb_spec z 0); [lia|]. rewrite Ht.
  destruct (Z.ltb_spec col z); [lia|]. unfold send_to_account. rewrite Hb. rewrite (pay_run c s _ a z Hc Hreach HP); try done. lia.
Qed.
