(** What was last announced is what the queries answer. *)
From Verif Require Export QueryP FrameP.

(** The settings as the successful messages so far announced them. *)
Record board := mk_board {
  bd_paused : bool; bd_portal_paused : bool; bd_vaults_paused : Z; bd_owner : string;
  bd_peer : Z -> option (bytes * bytes);
  bd_recipient : Z -> string -> option string;
  bd_path : Z -> bytes -> bool;
  bd_sent : nat }.
(** The settings of a chain that starts with [s]. *)
Definition board0 (s : state) : board :=
  mk_board (d_paused (st_dollar s)) (p_paused (st_portal s)) (v_paused (st_vaults s)) (p_owner (st_portal s))
    (fun _ => None) (fun p id => d_recipients (st_dollar s) !! (p, id)) (fun _ _ => false) 0.
(** A successful message announces a setting. *)
Definition announce (o : op) (b : board) : board :=
  let '(mk_board dp pp vp ow pe re pa n) := b in
  match o with
  | OpSetPaused _ x => mk_board x pp vp ow pe re pa n
  | OpPortalSetPaused _ x => mk_board dp x vp ow pe re pa n
  | OpVaultsSetPaused _ x => mk_board dp pp x ow pe re pa n
  | OpTransferOwnership _ x => mk_board dp pp vp x pe re pa n
  | OpSetPeer _ ch t m => mk_board dp pp vp ow (fun k => if decide (k = ch) then Some (t, m) else pe k) re pa n
  | OpSetYieldRecipient _ p id r =>
    mk_board dp pp vp ow pe (fun q k => if decide (q = p /\ k = id) then Some r else re q k) pa n
  | OpSetBridgingPath _ ch t x => mk_board dp pp vp ow pe re (fun k u => if decide (k = ch /\ u = t) then x else pa k u) n
  | OpTransfer _ _ _ _ _ _ => mk_board dp pp vp ow pe re pa (S n)
  | _ => b
  end.
Fixpoint board_of (c : config) (s : state) (b : board) (ops : list op) : board :=
  match ops with
  | [] => b
  | o :: ops => board_of c (step c s o) (if succeeds c s o then announce o b else b) ops
  end.

(** The board agrees with a state. *)
Record agrees (n0 : Z) (b : board) (s : state) : Prop := {
  ag_paused : d_paused (st_dollar s) = bd_paused b;
  ag_portal : p_paused (st_portal s) = bd_portal_paused b;
  ag_vaults : v_paused (st_vaults s) = bd_vaults_paused b;
  ag_owner : p_owner (st_portal s) = bd_owner b;
  ag_peer : forall k, p_peers (st_portal s) !! k = (fun tm => mk_peer tm.1 tm.2) <$> bd_peer b k;
  ag_recipient : forall p id, d_recipients (st_dollar s) !! (p, id) = bd_recipient b p id;
  ag_path : forall k t, default false (p_paths (st_portal s) !! (k, t)) = bd_path b k t;
  ag_sent : p_nonce (st_portal s) = (n0 + Z.of_nat (bd_sent b)) mod 2 ^ 32 }.

Ltac crack E :=
  cbn [exec] in E;
  unfold set_paused, portal_set_paused, vaults_set_paused, transfer_ownership, set_peer, set_bridging_path, set_yield_recipient,
    get_router, ensure_owner, bind, gets, modify, ret, fail in E;
  repeat (match type of E with
          | context [if ?x then _ else _] => destruct x eqn:?; try discriminate E
          | context [match c_dec ?c ?x with _ => _ end] => destruct (c_dec c x) eqn:?; try discriminate E
          | context [match c_hex ?c ?x with _ => _ end] => destruct (c_hex c x) eqn:?; try discriminate E
          | context [match default [] ?x with _ => _ end] => destruct (default [] x) as [|? []]; try discriminate E
          end);
  injection E as <-.

(** The settings a message leaves alone. *)
Lemma agrees_keep n0 b s s' : agrees n0 b s ->
  d_paused (st_dollar s') = d_paused (st_dollar s) -> p_paused (st_portal s') = p_paused (st_portal s) ->
  v_paused (st_vaults s') = v_paused (st_vaults s) -> p_owner (st_portal s') = p_owner (st_portal s) ->
  p_peers (st_portal s') = p_peers (st_portal s) -> d_recipients (st_dollar s') = d_recipients (st_dollar s) ->
  p_paths (st_portal s') = p_paths (st_portal s) -> p_nonce (st_portal s') = p_nonce (st_portal s) -> agrees n0 b s'.
Proof. intros [] E1 E2 E3 E4 E5 E6 E7 E8. constructor; try congruence; intros; rewrite ?E5, ?E6, ?E7; auto. Qed.

Lemma agrees_step c n0 b s o s' : chain_ok c -> reachable c s -> exec c o s = Ok s' tt -> agrees n0 b s -> agrees n0 (announce o b) s'.
Proof.
  intros Hc Hr E Hb. pose proof (winv_reachable _ _ Hc Hr) as Hw. destruct b as [dp pp vp ow pe re pa n].
  assert (K : forall p, bool_decide (p ∈ touched o) = false -> unchanged p s s').
  { intros p Hp. apply bool_decide_eq_false in Hp. eapply touched_op; eauto. }
  destruct o; cbn [announce];
    try (eapply agrees_keep; [exact Hb|apply (K PDollarPaused)|apply (K PPortalPaused)|apply (K PVaultsPaused)|apply (K POwner)
      |apply (K PPeers)|apply (K PYieldRecipients)|apply (K PPaths)|apply (K PNonce)]; vm_compute; reflexivity); clear K.
  - crack E. destruct Hb; constructor; cbn in *; auto.
  - crack E; (destruct Hb; constructor; cbn in *; auto; intros p k;
      destruct (decide (p = provider /\ k = id)) as [[-> ->]|Hk]; [by rewrite lookup_insert|];
      rewrite lookup_insert_ne; [auto|intros [= -> ->]; by apply Hk]).
  - crack E. destruct Hb; constructor; cbn in *; auto.
  - destruct (transfer_inv' _ _ _ _ _ _ _ _ _ (wf_module _ _ (wi_wfs _ _ Hw)) E)
      as (a & x & pr & sender & i & _ & _ & _ & _ & _ & _ & _ & _ & _ & _ & _ & ->).
    destruct (frame_burned (bump_nonce s) (AUser a) x) as (_ & _ & _ & _ & F1 & F2 & F3 & F4 & _).
    destruct Hb as [B1 B2 B3 B4 B5 B6 B7 B8]. constructor; unfold OpsP.post; cbn in B1, B2, B3, B4, B5, B6, B7, B8 |- *; rewrite ?F1, ?F2, ?F3, ?F4; auto.
    cbn. rewrite B8. unfold wrap_u32. change (Z.pow_pos 2 32) with (2 ^ 32). rewrite Z.add_mod_idemp_l by lia. f_equal. lia.
  - crack E. destruct Hb; constructor; cbn in *; auto.
  - crack E. destruct Hb; constructor; cbn in *; auto. intros k. destruct (decide (k = chain)) as [->|Hk]; [by rewrite lookup_insert|].
    by rewrite lookup_insert_ne.
  - crack E. destruct Hb; constructor; cbn in *; auto. intros k t. destruct (decide (k = chain /\ t = token)) as [[-> ->]|Hk]; [by rewrite lookup_insert|].
    rewrite lookup_insert_ne; [auto|]. intros [= -> ->]. by apply Hk.
  - crack E. destruct Hb; constructor; cbn in *; auto.
Qed.

Theorem board_agrees c s0 ops : chain_ok c -> fresh c s0 -> agrees (p_nonce (st_portal s0)) (board_of c s0 (board0 s0) ops) (run c s0 ops).
Proof.
  intros Hc Hf.
  assert (G : forall l s b, reachable c s -> agrees (p_nonce (st_portal s0)) b s -> agrees (p_nonce (st_portal s0)) (board_of c s b l) (run c s l)).
  { induction l as [|o l IH]; intros s b Hr Hb; [done|]. cbn [board_of]. change (run c s (o :: l)) with (run c (step c s o) l).
    unfold step, succeeds. destruct (exec c o s) as [s' []| |] eqn:E; [|by apply IH|by apply IH].
    apply IH; [by eapply reachable_step|by eapply agrees_step]. }
  apply G; [exists s0, []; done|].
  constructor; try done; cbn; intros.
  - by rewrite (fresh_peers _ _ Hf).
  - by rewrite (fresh_paths _ _ Hf).
  - rewrite Z.add_0_r. symmetry. apply Z.mod_small, (fresh_nonce _ _ Hf).
Qed.

(** The answers of the queries for settings. *)
Theorem settings_reported c s0 ops : chain_ok c -> fresh c s0 ->
  let s := run c s0 ops in let b := board_of c s0 (board0 s0) ops in
  q_paused s = Ok s (bd_paused b) /\ q_portal_paused s = Ok s (bd_portal_paused b) /\ q_vaults_paused s = Ok s (bd_vaults_paused b) /\
  q_owner s = Ok s (bd_owner b) /\
  (exists m, q_peers s = Ok s m /\ forall k, m !! k = (fun tm => mk_peer tm.1 tm.2) <$> bd_peer b k) /\
  (forall p id, q_yield_recipient p id s = match bd_recipient b p id with Some r => Ok s r | None => Err s ENotFound end) /\
  (forall k t, 0 <= k < 2 ^ 16 -> exists l, q_destination_tokens k s = Ok s l /\ (t ∈ l <-> bd_path b k t = true)) /\
  q_nonce s = Ok s ((p_nonce (st_portal s0) + Z.of_nat (bd_sent b)) mod 2 ^ 32).
Proof.
  intros Hc Hf s b. destruct (board_agrees c s0 ops Hc Hf) as [B1 B2 B3 B4 B5 B6 B7 B8]. fold s b in B1, B2, B3, B4, B5, B6, B7, B8.
  unfold q_paused, q_portal_paused, q_vaults_paused, q_owner, q_peers, q_yield_recipient, q_nonce, bind, gets, ret, fail.
  rewrite B1, B2, B3, B4, B8. split_and!; auto.
  - exists (p_peers (st_portal s)). auto.
  - intros p id. rewrite B6. by destruct (bd_recipient b p id).
  - intros k t Hk. destruct (tokens_reported s k) as (l & E & _ & Hl). exists l. split; [done|].
    rewrite Hl, Z.mod_small by done. rewrite <- B7. destruct (p_paths (st_portal s) !! (k, t)) as [[]|]; cbn; split; congruence.
Qed.
