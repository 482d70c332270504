(** Index updates and what can block them: C44. *)
From Verif Require Import Spec Concrete LiveP PropsVaults PropsRewards PropsExt.

(** Checking [index_message] for a message of the peer in a concrete state. *)
Definition message0 (s : state) (n i : Z) : bool :=
  match vaa0 (index_vaa n i) with
  | None => false
  | Some v =>
    match p_peers (st_portal s) !! va_chain v with
    | None => false
    | Some pr =>
      bool_decide (va_digest v ∉ x_vaas (st_world s)) && (0 <=? sl_len (va_payload v)) && (sl_len (va_payload v) <=? sl_cap (va_payload v)) &&
      bool_decide (va_emitter v = pr_transceiver pr) &&
      bool_decide (sl_bytes (va_payload v) = index_wire (pr_manager pr) (manager_word cfg0) (be_encode 32 n) (replicate 32 Byte.x44) [] i (c_chain cfg0)) &&
      (blen (be_encode 32 n) =? 32) && (current_index s <? i) && (i <? 2 ^ 63)
    end
  end.
Lemma message0_ok s n i : message0 s n i = true -> index_message cfg0 s (index_vaa n i) i.
Proof.
  unfold message0, index_message. cbn [c_vaa cfg0]. destruct (vaa0 (index_vaa n i)) as [v|] eqn:Ev; [|done].
  destruct (p_peers (st_portal s) !! va_chain v) as [pr|] eqn:Ep; [|done].
  rewrite !andb_true_iff, !bool_decide_eq_true, !Z.leb_le, !Z.ltb_lt, !Z.eqb_eq. intros (((((((A & B) & C) & D) & E) & F) & G) & H).
  exists v, pr, (be_encode 32 n), (replicate 32 Byte.x44), []. unfold slice_ok, wide. repeat split; auto.
Qed.

(** * C44 Index updates cannot be blocked *)
(** Repeated payments of 1 to another chain. *)
Definition burn1 : op := OpTransfer true (c_enc cfg0 alice) 2 eth_token (replicate 32 Byte.x01) (Some 1).
Definition i11 : Z := 1100000000000.
(** 11 issued to alice at index 1.1, of which 10 leave in payments of 1: one dollar without principal remains. *)
Definition blocked_dust : list op := setup ++ [reindex 1 i11; issue 2 alice 11 i11] ++ replicate 10 burn1.
(** 2000 issued to alice at index 1.1, locked in twenty staked positions of 100. *)
Definition blocked_locks : list op := setup ++ [reindex 1 i11; issue 2 alice 2000 i11] ++
  concat (replicate 20 [OpTime 1; OpLock (c_enc cfg0 alice) STAKED (Some 100)]).
(** A transfer from the other chain to the yield account. *)
Definition blocked_yield : list op := ops1 ++ [issue 5 YieldA 1000000 e12].
(** A second router for a token with a yield recipient; a recipient that is not an address. *)
Definition blocked_router : list op := ops5 ++ [OpWarpRouters tokA [1; 2]].
Definition blocked_recipient : list op := ops5 ++ [OpSetYieldRecipient authority HYPERLANE idA "short"].

(** False: histories after which an authentic higher index is refused
    or panics. The first three need no privileged message (beyond the setup). *)
Theorem C44_blocked_refuted :
  (forall l n i, (l, n, i) ∈ [(blocked_dust, 3, i11 + 100000); (blocked_locks, 3, i11 + 1); (blocked_yield, 6, i11);
     (blocked_router, 31, i11); (blocked_recipient, 31, i11)] ->
   chain_ok cfg0 /\ reachable cfg0 (run cfg0 init0 l) /\ p_paused (st_portal (run cfg0 init0 l)) = false /\
   d_paused (st_dollar (run cfg0 init0 l)) = false /\
   index_message cfg0 (run cfg0 init0 l) (index_vaa n i) i /\ succeeds cfg0 (run cfg0 init0 l) (reindex n i) = false) /\
  (** after the first history the supply exceeds the value of the total principal at every index *)
  total_principal (run cfg0 init0 blocked_dust) = 0 /\ supply (run cfg0 init0 blocked_dust) = 1.
Proof.
  split; [|vm_compute; auto]. intros l n i Hin.
  split; [apply chain0_ok|]. split; [apply reach0|]. 
  repeat (apply elem_of_cons in Hin as [[= -> -> ->]|Hin]; [split; [vm_compute; reflexivity|]; split; [vm_compute; reflexivity|];
    split; [apply message0_ok|]; vm_compute; reflexivity|]). by apply elem_of_nil in Hin.
Qed.
Print Assumptions C44_blocked_refuted.

(** What holds: with usable hyperlane routes, magnitudes below the overflow
    thresholds and an ordinary collector account, the message is applied when the
    supply does not exceed the value of the total principal at the new index and
    the yield account, after receiving that difference, can pay what the vaults,
    the channels and the warp account may claim. Missing: the two inequalities do not
    hold in every reachable state (C10, C11), and usable routes depend on hyperlane. *)
Theorem C44_applied_partial c s x bz index : chain_ok c -> reachable c s -> p_paused (st_portal s) = false ->
  index_message c s bz index -> claims_unblocked c -> routes_usable c s -> update_in_range c s ->
  (v_ended (st_vaults s) = true -> bystander (v_collector (st_vaults s))) ->
  supply s <= floor_div (total_principal s * index) unit_index ->
  index_claims s index <= bal s YieldA + (floor_div (total_principal s * index) unit_index - supply s) ->
  exists s', exec c (OpDeliver x bz) s = Ok s' tt /\ current_index s' = index.
Proof. exact (index_accepted c s x bz index). Qed.
Print Assumptions C44_applied_partial.

(** The state with a channel and two hyperlane routes meets the hypotheses. *)
Lemma map_bound {K} `{Countable K} (m : gmap K Z) (f : Z -> Prop) k : map_Forall (fun _ z => f z) m -> f 0 -> f (default 0 (m !! k)).
Proof. intros F O. destruct (m !! k) as [z|] eqn:E; [exact (F _ _ E)|exact O]. Qed.
Definition route0 (s : state) (k : Z * string) (rc : string) : bool :=
  negb (k.1 =? HYPERLANE) ||
  match hex0 k.2 with
  | Some h => bool_decide (is_Some (x_tokens (st_world s) !! be_decode (drop 24 h))) && bool_decide (is_Some (hex0 rc)) &&
              match x_routers (st_world s) !! be_decode (drop 24 h) with Some [_] => true | _ => false end
  | None => false end.
Lemma routes0 s : map_Forall (fun k rc => route0 s k rc = true) (d_recipients (st_dollar s)) -> routes_usable cfg0 s.
Proof.
  intros F id rc E. specialize (F _ _ E). unfold route0 in F. cbn [fst snd] in F. rewrite Z.eqb_refl in F. cbn [negb orb] in F.
  cbn [c_hex cfg0]. destruct (hex0 id) as [h|]; [|done]. exists h.
  destruct (x_routers (st_world s) !! be_decode (drop 24 h)) as [[|d [|]]|]; try (rewrite ?andb_false_r in F; done).
  rewrite andb_true_r in F. apply andb_true_iff in F as [F1 F2]. apply bool_decide_eq_true in F1, F2. exists d. auto.
Qed.
Lemma unblocked0 : claims_unblocked cfg0.
Proof. repeat split; try reflexivity. Qed.
Example C44_applied_ex : reachable cfg0 st5 /\ p_paused (st_portal st5) = false /\ index_message cfg0 st5 (index_vaa 31 i11) i11 /\
  claims_unblocked cfg0 /\ routes_usable cfg0 st5 /\ update_in_range cfg0 st5 /\ v_ended (st_vaults st5) = false /\
  supply st5 <= floor_div (total_principal st5 * i11) unit_index /\
  index_claims st5 i11 <= bal st5 YieldA + (floor_div (total_principal st5 * i11) unit_index - supply st5) /\
  index_claims st5 i11 = 35000 /\ current_index (after st5 (reindex 31 i11)) = i11.
Proof.
  split; [apply reach5|]. split; [vm_compute; reflexivity|]. split; [apply message0_ok; vm_compute; reflexivity|]. split; [apply unblocked0|].
  split; [apply routes0; apply (bool_decide_unpack _); vm_compute; exact I|].
  split; [constructor|].
  - vm_compute. done.
  - intros a. apply (map_bound _ (fun z => Z.abs z < 2 ^ 150)); [|done]. apply (bool_decide_unpack _). vm_compute. exact I.
  - vm_compute. done.
  - intros k. apply (map_bound _ (fun z => z < 2 ^ 180)); [|done]. apply (bool_decide_unpack _). vm_compute. exact I.
  - intros k. apply (map_bound _ (fun z => Z.abs z < 2 ^ 250)); [|done]. apply (bool_decide_unpack _). vm_compute. exact I.
  - vm_compute. done.
  - vm_compute. repeat split; try reflexivity; intros [=].
Qed.
