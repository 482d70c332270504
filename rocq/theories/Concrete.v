(** A concrete chain used to show that hypotheses can be met. *)
From Verif Require Export Spec.
Import Coq.Init.Byte.

(** Digits of a binary number as letters, lowest first. *)
Fixpoint pos_letters (p : positive) : string :=
  match p with
  | xH => "z" | xO p => String (Ascii.ascii_of_N 97) (pos_letters p)
  | xI p => String (Ascii.ascii_of_N 98) (pos_letters p)
  end.
Fixpoint letters_pos (s : string) : option positive :=
  match s with
  | EmptyString => None
  | String a r =>
    if Ascii.eqb a (Ascii.ascii_of_N 122) then
      (match r with EmptyString => Some xH | _ => None end)
    else match letters_pos r with
         | None => None
         | Some p =>
           if Ascii.eqb a (Ascii.ascii_of_N 97) then Some (xO p)
           else if Ascii.eqb a (Ascii.ascii_of_N 98) then Some (xI p) else None
         end
  end.
Definition enc0 (a : addr) : string := pos_letters (encode a).
Definition dec0 (s : string) : option addr :=
  match letters_pos s with
  | None => None
  | Some p => match decode p with
              | Some a => if decide (enc0 a = s) then Some a else None
              | None => None
              end
  end.

Definition raw_yield : bytes := replicate 19 x00 ++ [xfe].
Definition raw0 (a : addr) : bytes :=
  match a with
  | AUser b => b
  | _ => if decide (a = YieldA) then raw_yield else
         if decide (a = ManagerA) then replicate 19 x00 ++ [xfd] else replicate 20 xff
  end.
Definition acct0 (b : bytes) : addr :=
  if decide (b = raw_yield) then YieldA else AUser b.

Definition user (n : Z) : addr := AUser (be_encode 20 n).
Definition alice : addr := user 1.
Definition bob : addr := user 2.
Definition carol : addr := user 3.
Definition authority : string := "authority".
Definition owner0 : string := enc0 carol.

(** VAA bytes: emitter chain (2), emitter (32), digest (4), payload. *)
Definition vaa0 (bs : bytes) : option vaa :=
  if decide (38 <= Z.of_nat (length bs))
  then Some (mk_vaa (be_decode (take 2 bs)) (take 32 (drop 2 bs)) (sl_of (drop 38 bs)) (take 4 (drop 34 bs)))
  else None.
Definition hex0 (s : string) : option bytes :=
  let bs := bytes_of_string s in
  if decide (length bs = 32%nat) then Some bs else None.

Definition cfg0 : config := {|
  c_denom := "uusdn"; c_authority := authority; c_min_lock := 100; c_min_unlock := 50;
  c_dec := dec0; c_enc := enc0; c_raw := raw0; c_acct := acct0;
  c_blocked := fun a => bool_decide (a = ModuleA);
  c_chain := 4009; c_vaa := vaa0; c_hex := hex0; c_keccak := fun bs => bs |}.

Definition init0 : state := mk_state
  (mk_bank ∅ 0 0)
  (mk_dollar false e12 ∅ (mk_dstats 0 0 0) ∅ ∅ ∅)
  (mk_portal owner0 false ∅ ∅ 0)
  (mk_vaults 0 false (AMod "collector") ∅ 0 ∅ (mk_vstats 0 0 0 0 0))
  (mk_world 1000 ∅ [] ∅ [] [] ∅ ∅ []).

(** The peer on chain 2 used below. *)
Definition eth_transceiver : bytes := replicate 32 x11.
Definition eth_manager : bytes := replicate 32 x22.
Definition eth_token : bytes := replicate 32 x33.
Definition allok : oracle := mk_oracle (fun _ => XOk) (fun _ => XOk).

(** A VAA from the peer with digest [n] around a payload. *)
Definition mk_vaa_bytes (n : Z) (payload : bytes) : bytes :=
  be_encode 2 2 ++ eth_transceiver ++ be_encode 4 n ++
  wire eth_manager (manager_word cfg0) (be_encode 32 n) (replicate 32 x44) payload [].
Definition token_vaa (n : Z) (to : addr) (amount index : Z) : bytes :=
  mk_vaa_bytes n (token_bytes (replicate 32 x55) (replicate 12 x00 ++ raw0 to) (token_word cfg0) amount index (c_chain cfg0)).
Definition index_vaa (n : Z) (index : Z) : bytes :=
  mk_vaa_bytes n (index_bytes index (c_chain cfg0)).

Definition issue (n : Z) (to : addr) (amount index : Z) : op := OpDeliver allok (token_vaa n to amount index).
Definition reindex (n index : Z) : op := OpDeliver allok (index_vaa n index).
Definition setup : list op :=
  [OpSetPeer owner0 2 eth_transceiver eth_manager; OpSetBridgingPath owner0 2 eth_token true].
(** alice gets 1000000, bob 500000 *)
Definition ops1 : list op := setup ++ [issue 1 alice 1000000 e12; issue 2 bob 500000 e12].
Definition st1 : state := run cfg0 init0 ops1.

Lemma letters_pos_letters p : letters_pos (pos_letters p) = Some p.
Proof. induction p as [p IH|p IH|]; cbn; [rewrite IH|rewrite IH|]; done. Qed.
Lemma lower_pos_letters p : string_lower (pos_letters p) = pos_letters p.
Proof. induction p as [p IH|p IH|]; cbn; [rewrite IH|rewrite IH|]; done. Qed.
Lemma slash_pos_letters p : ~ slash ∈ String.list_ascii_of_string (pos_letters p).
Proof.
  induction p as [p IH|p IH|]; cbn; rewrite elem_of_cons; intros [H|H]; try done.
  by apply elem_of_nil in H.
Qed.
Lemma codec0_ok : codec_ok cfg0.
Proof.
  constructor; cbn.
  - intros a. unfold dec0. unfold enc0 at 1. rewrite letters_pos_letters, decode_encode.
    by rewrite decide_True.
  - intros t a. unfold dec0. destruct (letters_pos t); [|done]. destruct (decode p); [|done].
    case_decide; [|done]. intros [= ->]. subst t. apply lower_pos_letters.
  - intros a. apply slash_pos_letters.
  - done.
Qed.
Lemma chain0_ok : chain_ok cfg0.
Proof. constructor; [apply codec0_ok|done|done|done|done|done]. Qed.
Lemma init0_fresh : fresh cfg0 init0.
Proof. constructor; try done. Qed.
Lemma reach0 l : reachable cfg0 (run cfg0 init0 l).
Proof. exists init0, l. split; [apply init0_fresh|done]. Qed.

(** The index rises by a tenth: 150000 is minted to the yield account. *)
Definition st2 : state := run cfg0 st1 [reindex 3 1100000000000].
(** The result of one message. *)
Definition after (s : state) (o : op) : state := step cfg0 s o.
Lemma reach_after c s l : reachable c s -> reachable c (run c s l).
Proof. intros (s0 & ops & H & ->). exists s0, (ops ++ l). split; [done|]. unfold run. by rewrite fold_left_app. Qed.
Lemma reach1 : reachable cfg0 st1.
Proof. exact (reach0 ops1). Qed.
Lemma reach2 : reachable cfg0 st2.
Proof. exact (reach_after cfg0 st1 _ reach1). Qed.
