(** Which message touches which part of the state. *)
From Verif Require Export UpdateP.

Ltac frame :=
  let Hp := fresh "Hp" in
  intros []; intros Hp; apply (bool_decide_eq_false_2 _) in Hp; vm_compute in Hp; try discriminate Hp; clear Hp.
Lemma touched_op c o s s' p : chain_ok c -> winv c s -> exec c o s = Ok s' tt -> p ∉ touched o -> unchanged p s s'.
Proof.
  intros Hc Hw H. revert p. pose proof Hw as W. destruct Hw as [Hw Hpw].
  pose proof (ok_blocked _ Hc) as Hbl. pose proof (ok_codec _ Hc) as Hco. pose proof (wf_packets _ _ Hw) as Hpk.
  destruct (administrative o) eqn:Ha.
  { apply admin_inv in H; [|done]. destruct o; try discriminate; cbn in H; decompose [and] H; subst s'; frame; done. }
  destruct o; try discriminate.
  - destruct (claim_inv' _ _ _ _ H) as (b & y & _ & _ & _ & _ & _ & ->). unfold pay.
    destruct (0 <? y); frame; rewrite ?send_from_yield; done.
  - destruct (lock_inv' _ _ _ _ _ _ Hc H) as (b & amt & _ & _ & _ & _ & _ & _ & _ & _ & ->).
    unfold lock_result, lock_state, add_flex. destruct (vault =? FLEXIBLE); frame; done.
  - pose proof (supply_op_same _ _ _ _ Hc W H eq_refl) as Hsu.
    destruct (yield_stat_op _ _ _ _ Hc W H I) as [Hys Hix].
    destruct (unlock_inv' _ _ _ _ _ _ Hpw H) as (b & amt & d & s1 & _ & _ & _ & _ & _ & _ & _ & _ & Hu & ->).
    apply unls_frame in Hu as (_ & Hvp & He & Hcol & _ & _ & Hpt & Hx & Hd). injection Hd as ? ? ? ? ?.
    frame; cbn [unchanged]; try done;
      change (st_world (unlock_result s1 (AUser b) vault d)) with (st_world s1);
      change (st_portal (unlock_result s1 (AUser b) vault d)) with (st_portal s1);
      change (st_dollar (unlock_result s1 (AUser b) vault d)) with (st_dollar s1); congruence.
  - destruct (deliver_quiet _ _ _ _ _ Hc Hw H) as [Hpt Hv Hd Hx _].
    injection Hv as ? ? ? ? ? ?. injection Hd as ? ?. injection Hx as ? ? ? ? ?.
    frame; cbn [unchanged]; unfold positions; congruence.
  - destruct (transfer_inv' _ _ _ _ _ _ _ _ _ (wf_module _ _ Hw) H)
      as (b & amt & pr & sender & id & _ & -> & Hamt & _ & _ & _ & _ & _ & _ & _ & _ & ->).
    unfold burned. destruct (0 <? amt); frame; done.
  - destruct (op_send_inv _ _ _ _ _ _ Hbl H) as (_ & _ & _ & _ & ->). frame; done.
  - pose proof (supply_op_same _ _ _ _ Hc W H eq_refl) as Hsu.
    destruct (op_multi_inv _ _ _ _ _ Hbl H) as (_ & _ & _ & _ & Hmu). apply multi_frame in Hmu as (Hpt & Hv & Hx & Hd & Hy). cbn in Hpt, Hv, Hx, Hd, Hy.
    destruct (yield_stat_op _ _ _ _ Hc W H I) as [Hys Hix].
    injection Hd as ? ? ? ? ?. frame; cbn [unchanged]; unfold positions, rewards; first [done|congruence].
  - destruct (op_ibc_send_inv _ _ _ _ _ _ _ _ H) as (_ & _ & _ & ->). frame; done.
  - destruct (op_ibc_recv_inv _ _ _ _ _ _ Hbl H) as (a & _ & _ & [[_ ->]|(_ & _ & _ & ->)]); frame; done.
  - destruct (op_ibc_ack_inv _ _ _ _ _ Hco Hpk H) as (p & Hpp & [[_ ->]|[_ Hf]]); [frame; done|].
    unfold failed_packet in Hf. destruct (is_usdn c p); [|subst; frame; done].
    destruct Hf as (a' & z & rc & _ & _ & _ & ->). destruct (is_yield_packet c p); frame; done.
  - destruct (op_ibc_timeout_inv _ _ _ _ Hco Hpk H) as (p & Hpp & Hf).
    unfold failed_packet in Hf. destruct (is_usdn c p); [|subst; frame; done].
    destruct Hf as (a' & z & rc & _ & _ & _ & ->). destruct (is_yield_packet c p); frame; done.
  - destruct (op_warp_send_inv c _ _ _ _ _ _ _ _ H) as (col & _ & _ & _ & _ & ->). frame; done.
  - destruct (op_warp_recv_inv _ _ _ _ _ _ Hbl H) as (col & _ & _ & _ & _ & _ & ->). frame; done.
Qed.

Lemma unchanged_refl p s : unchanged p s s.
Proof. by destruct p. Qed.
Theorem touched_only c s o p : chain_ok c -> reachable c s -> ~ unchanged p s (step c s o) -> p ∈ touched o.
Proof.
  intros Hc Hr Hn. destruct (decide (p ∈ touched o)) as [|Hp]; [done|]. exfalso. apply Hn.
  destruct (step_cases c s o) as [->|E]; [apply unchanged_refl|].
  eapply touched_op; eauto using winv_reachable.
Qed.
