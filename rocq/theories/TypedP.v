(** The keys of the store stay in the types of the code. *)
From Verif Require Import SendP Spec Store StoreP PosP StakeP TraceP InvP AdminP ExtP RewardP VaultsP.
From Coq Require Import Lia.

(** The integers of a message that become part of a key have the types of the
    messages: an enum is an int32 (/repo/types/v2/dollar.pb.go:29), a wormhole chain
    a uint16 (/repo/types/portal/tx.pb.go:271 and 349). *)
Definition typed_op (o : op) : Prop :=
  match o with
  | OpSetYieldRecipient _ p _ _ => fits_i32 p
  | OpSetPeer _ ch _ _ | OpSetBridgingPath _ ch _ _ => fits_u16 ch
  | _ => True
  end.

Record typed (t0 : Z) (s : state) : Prop := {
  ty_recipients : forall k, is_Some (d_recipients (st_dollar s) !! k) -> fits_i32 k.1;
  ty_peers : forall k, is_Some (p_peers (st_portal s) !! k) -> fits_u16 k;
  ty_paths : forall k, is_Some (p_paths (st_portal s) !! k) -> fits_u16 k.1;
  ty_now : t0 <= x_now (st_world s);
  ty_positions : forall k, is_Some (v_positions (st_vaults s) !! k) -> t0 <= k.2;
  ty_rewards : forall k, is_Some (v_rewards (st_vaults s) !! k) -> 0 < k
}.

Lemma now_positions c o s s' t0 : chain_ok c -> winv c s -> exec c o s = Ok s' tt ->
  t0 <= x_now (st_world s) -> (forall k, is_Some (v_positions (st_vaults s) !! k) -> t0 <= k.2) ->
  t0 <= x_now (st_world s') /\ (forall k, is_Some (v_positions (st_vaults s') !! k) -> t0 <= k.2).
Proof.
  intros Hc Hwi H T0 P0. pose proof Hwi as [Hw Hp].
  destruct (administrative o) eqn:Ha.
  { apply admin_inv in H; [|done]. destruct o; try discriminate; cbn in H; decompose [and] H; subst s'; cbn; (split; [lia|exact P0]). }
  destruct (plain_op o) eqn:Hpo.
  { destruct (plain_frame c o s s' Hpo Hc Hw H) as [Hv _ _ _ _ Hn _ _]. rewrite Hv, Hn. done. }
  destruct o; try discriminate.
  - destruct (lock_inv' _ _ _ _ _ _ Hc H) as (b & amt & _ & _ & _ & _ & _ & Hamt & Hv & Hk & ->).
    assert (Hx : x_now (st_world (lock_result s (AUser b) (position_account signer vault (x_now (st_world s))) vault amt)) = x_now (st_world s)).
    { unfold lock_result, lock_state, add_flex. by destruct (vault =? FLEXIBLE). }
    rewrite Hx. split; [done|]. intros k. rewrite lock_positions. intros [<-|Hk']%lookup_insert_is_Some'; [exact T0|by apply P0].
  - destruct (unlock_inv' _ _ _ _ _ _ Hp H) as (b & amt & d & s1 & _ & _ & _ & _ & _ & _ & Hamt & _ & Hu & ->).
    apply unls_frame in Hu as (Hpo' & _ & _ & _ & _ & _ & _ & Hx & _).
    change (st_world (unlock_result s1 (AUser b) vault d)) with (st_world s1). rewrite Hx. split; [done|].
    intros k [q Hk]. rewrite unlock_positions, Hpo', positions_entries in Hk.
    apply take_pos_lookup in Hk as [Hk|(p & z & Hk & Hz & ->)]; [| |by apply pos_wf_pmap|lia]; apply P0; eauto.
  - apply deliver_quiet in H as [_ Hv _ Hx _]; auto. apply vrest_pos in Hv. apply wrest_now in Hx. rewrite Hv, Hx. done.
Qed.

Lemma typed_run c s0 l : chain_ok c -> fresh c s0 -> (forall k, is_Some (d_recipients (st_dollar s0) !! k) -> fits_i32 k.1) ->
  Forall typed_op l -> typed (x_now (st_world s0)) (run c s0 l).
Proof.
  intros Hc Hf H0. induction l as [|o l IH] using rev_ind; intros Hl.
  - constructor; try done; cbn; intros k [x Hx]; exfalso; revert Hx.
    + by rewrite (fresh_peers _ _ Hf), lookup_empty.
    + by rewrite (fresh_paths _ _ Hf), lookup_empty.
    + by rewrite (fresh_positions _ _ Hf), lookup_empty.
    + by rewrite (fresh_rewards _ _ Hf), lookup_empty.
  - apply Forall_app in Hl as [Hl Ho]. rewrite Forall_singleton in Ho. specialize (IH Hl). rewrite run_snoc.
    pose proof (winv_run _ _ l Hc (winv_fresh _ _ Hf)) as W. pose proof (kinv_run _ _ l Hc Hf) as HK.
    pose proof (totals_run c s0 l FLEXIBLE Hc Hf) as HT. revert W HK HT IH. generalize (run c s0 l). intros s W HK HT [I1 I2 I3 I4 I5 I6].
    destruct (step_cases c s o) as [E|E]; [by rewrite E|].
    destruct (now_positions _ _ _ _ _ Hc W E I4 I5) as [J4 J5].
    destruct (kept_step _ _ _ _ _ Hc W HK HT E) as [KR _].
    assert (J6 : forall k, is_Some (v_rewards (st_vaults (step c s o)) !! k) -> 0 < k).
    { intros k [r Hr]. destruct (v_rewards (st_vaults s) !! k) eqn:Ek; [by apply I6; eauto|].
      destruct (kr_new _ _ KR _ _ Ek Hr) as [? _]. pose proof (wf_index _ _ (wi_wfs _ _ W)). lia. }
    destruct (administrative o) eqn:Ha.
    + apply admin_inv in E; [|done]. revert E J4 J5 J6. clear KR. generalize (step c s o). intros s' E J4 J5 J6.
      constructor; auto; clear J4 J5 J6; destruct o; try discriminate; cbn in E; decompose [and] E; subst s'; cbn; auto;
        intros k Hk%lookup_insert_is_Some'; destruct Hk as [<-|Hk]; auto.
    + destruct (settings_op _ _ _ _ Hc W E Ha) as [E1 E2 E3]. unfold drest in E1. injection E1 as E1 E1'.
      constructor; auto.
      * by rewrite E1'.
      * by rewrite E3.
      * by rewrite E3.
Qed.

Theorem typed_keys c s0 l : chain_ok c -> fresh c s0 -> (forall k, is_Some (d_recipients (st_dollar s0) !! k) -> fits_i32 k.1) ->
  Forall typed_op l -> let s := run c s0 l in
  - 2 ^ 63 <= x_now (st_world s0) -> x_now (st_world s) < 2 ^ 63 ->
  (forall a v t, is_Some (positions s !! (a, v, t)) -> Z.of_nat (length (c_raw c a)) <= 255) ->
  forall k, content s k <> None -> fits c k.
Proof.
  intros Hc Hf H0 Hl s Hlo Hhi Hraw k Hk. assert (Hr : reachable c s) by (by exists s0, l).
  destruct (typed_run c s0 l Hc Hf H0 Hl) as [I1 I2 I3 I4 I5 I6]. fold s in I1, I2, I3, I4, I5, I6.
  destruct (winv_reachable _ _ Hc Hr) as [W P]. destruct (configured_reachable _ _ Hc Hr) as [_ C2 C3].
  pose proof (kinv_reachable _ _ Hc Hr) as HK.
  assert (HP : forall a v t, is_Some (v_positions (st_vaults s) !! (a, v, t)) -> Z.of_nat (length (c_raw c a)) <= 255 /\ fits_i32 v /\ fits_i64 t).
  { intros a v t Hx. split; [by apply (Hraw a v t)|]. pose proof (I5 _ Hx) as Ht. destruct Hx as [p Hx]. destruct (P _ _ Hx) as (_ & _ & _ & Hv & _ & Hn). cbn in Hv, Hn, Ht.
    split; [|unfold fits_i64; lia]. unfold fits_i32, STAKED, FLEXIBLE in *. lia. }
  assert (HS : forall A B (f : A -> B) (x : option A), f <$> x <> None -> is_Some x) by (intros A B f [x|]; [eauto|done]).
  destruct k; cbn in Hk |- *; try done; try apply HS in Hk.
  - exact (I1 _ (C2 _ Hk)).
  - exact (I1 _ Hk).
  - exact (I1 _ (C3 _ Hk)).
  - exact (I2 _ Hk).
  - exact (I3 _ Hk).
  - exact (HP _ _ _ Hk).
  - exact (HP _ _ _ Hk).
  - exact (HP _ _ _ Hk).
  - pose proof (I6 _ Hk). destruct Hk as [r Hk]. apply HK in Hk as [_ Hk]. pose proof (wf_index _ _ W). unfold fits_i64. lia.
Qed.
