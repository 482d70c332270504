(** Effects of the dollar operations as relations between states. *)
From Verif Require Export SendP.

(** * Projections of [send_result] *)
Lemma bal_mget s a : bal s a = mget (bk_bal (st_bank s)) a.
Proof. done. Qed.
Lemma prin_mget s a : prin s a = mget (d_principal (st_dollar s)) a.
Proof. done. Qed.

Definition ind (P : Prop) {_ : Decision P} (z : Z) : Z := if decide P then z else 0.

Lemma bal_send s f t amt a :
  bal (send_result s f t amt) a = bal s a - ind (a = f) amt + ind (a = t) amt.
Proof.
  rewrite !bal_mget. unfold send_result; cbn. rewrite !mget_addz. unfold ind.
  repeat case_decide; lia.
Qed.
Lemma sum_send s f t amt : msum (bk_bal (st_bank (send_result s f t amt))) = msum (bk_bal (st_bank s)).
Proof. unfold send_result; cbn. rewrite !msum_addz. lia. Qed.
Lemma supply_send s f t amt : supply (send_result s f t amt) = supply s.
Proof. done. Qed.
Lemma index_send s f t amt : current_index (send_result s f t amt) = current_index s.
Proof. done. Qed.
Lemma sends_send s f t amt : bk_sends (st_bank (send_result s f t amt)) = bk_sends (st_bank s) + 1.
Proof. unfold send_result; cbn. lia. Qed.
Lemma vaults_send s f t amt : st_vaults (send_result s f t amt) = st_vaults s.
Proof. done. Qed.
Lemma portal_send s f t amt : st_portal (send_result s f t amt) = st_portal s.
Proof. done. Qed.
Lemma world_send s f t amt : st_world (send_result s f t amt) = st_world s.
Proof. done. Qed.

(** A transfer between two accounts other than yield and module. *)
Lemma prin_send s f t amt a :
  f <> YieldA -> t <> YieldA -> f <> ModuleA -> t <> ModuleA ->
  prin (send_result s f t amt) a =
    prin s a - ind (a = f) (up amt (current_index s)) + ind (a = t) (up amt (current_index s)).
Proof.
  intros. rewrite !prin_mget. unfold send_result; cbn. unfold send_prin.
  rewrite !decide_False by auto. rewrite !mget_addz. unfold ind. repeat case_decide; lia.
Qed.
Lemma tp_send s f t amt :
  f <> YieldA -> t <> YieldA -> f <> ModuleA -> t <> ModuleA ->
  total_principal (send_result s f t amt) = total_principal s.
Proof.
  intros. unfold total_principal at 1, send_result; cbn. unfold send_tp. by rewrite !decide_False by auto.
Qed.
Lemma psum_send s f t amt :
  f <> YieldA -> t <> YieldA -> f <> ModuleA -> t <> ModuleA ->
  msum (d_principal (st_dollar (send_result s f t amt))) = msum (d_principal (st_dollar s)).
Proof.
  intros. unfold send_result; cbn. unfold send_prin. rewrite !decide_False by auto.
  rewrite !msum_addz. lia.
Qed.
(** A payment from the yield account changes nothing but two balances. *)
Lemma send_from_yield s t amt :
  send_result s YieldA t amt =
    mk_state
      (mk_bank (addz t amt (addz YieldA (- amt) (bk_bal (st_bank s)))) (supply s) (Z.succ (bk_sends (st_bank s))))
      (st_dollar s) (st_portal s) (st_vaults s) (st_world s).
Proof.
  unfold send_result, send_prin, send_holders, send_tp. rewrite !decide_True by auto.
  destruct s as [b d p v w], d, d_stats; done.
Qed.

(** * Yield *)

(** The claimable yield of an account. *)
Definition yield_of (s : state) (a : addr) : Z :=
  let y := present (prin s a) (current_index s) - bal s a in
  if int_fits y && (1 <? y) then y else 0.

Lemma get_yield_of_spec a s (Q : state -> Z -> Prop) E :
  Q s (yield_of s a) -> wp (get_yield_of a) s Q E.
Proof.
  intros HQ. unfold get_yield_of, get_principal, get_index.
  apply wp_bind, wp_gets, wp_bind, wp_gets, wp_bind, wp_gets, wp_bind, wp_lift.
  2:{ intros e He. by apply present_amount_err in He. }
  intros x ->%present_amount_ok. apply wp_ret.
  unfold yield_of in HQ. unfold int_safe_sub.
  destruct (int_fits (present (prin s a) (current_index s) - bal s a)); cbn in HQ; [|done].
  set (y := present _ _ - _) in *.
  destruct (Z.eqb_spec y 1), (Z.ltb_spec y 0), (Z.ltb_spec 1 y); cbn; try lia; try done.
  assert (y = 0) by lia. by rewrite H1.
Qed.
Lemma yield_of_nonneg s a : 0 <= yield_of s a.
Proof. unfold yield_of. destruct int_fits; cbn; [|lia]. destruct (Z.ltb_spec 1 (present (prin s a) (current_index s) - bal s a)); lia. Qed.
(** Either nothing or more than one, and then it completes the balance to the
    present value of the principal. *)
Lemma yield_of_pos s a :
  0 < yield_of s a -> 1 < yield_of s a /\ bal s a + yield_of s a = present (prin s a) (current_index s).
Proof.
  unfold yield_of. destruct int_fits; cbn; [|lia].
  destruct (Z.ltb_spec 1 (present (prin s a) (current_index s) - bal s a)); lia.
Qed.

Lemma new_coins_spec amt s (Q : state -> Z -> Prop) (E : state -> err -> Prop) : (0 <= amt -> Q s amt) -> wp (new_coins amt) s Q E.
Proof. unfold new_coins. destruct (Z.ltb_spec amt 0); intros; [done|]. apply wp_ret. auto. Qed.

(** State after paying [y] from the yield account. *)
Definition pay (s : state) (a : addr) (y : Z) : state :=
  if 0 <? y then send_result s YieldA a y else s.

Lemma send_yield_spec a y s (Q : state -> unit -> Prop) (E : state -> err -> Prop) :
  0 <= y ->
  (y <= bal s YieldA \/ y = 0 -> Q (pay s a y) tt) ->
  (bal s YieldA < y -> E s EInsufficientFunds) ->
  wp (send_coins YieldA a y) s Q E.
Proof.
  intros Hy HQ HE. unfold pay in HQ. destruct (Z.ltb_spec 0 y).
  - eapply wp_mono; [apply send_coins_cases; lia| |]; cbn.
    + intros s' [] (Hb & _ & ->). auto.
    + intros s' e [(Hb & -> & ->)|[(_ & Hn & _)|(_ & _ & Hm & _)]]; auto; exfalso.
      * apply Hn. by left.
      * done.
  - assert (y = 0) as -> by lia. apply wp_ret. auto.
Qed.

(** A transfer between ordinary accounts: it happens or nothing happens. *)
Definition xfer (s : state) (f t : addr) (amt : Z) : state :=
  if 0 <? amt then send_result s f t amt else s.
Lemma send_plain_spec f t amt s (Q : state -> unit -> Prop) (E : state -> err -> Prop) :
  0 <= amt -> f <> ModuleA -> t <> ModuleA -> t <> YieldA ->
  (amt <= bal s f \/ amt = 0 -> Q (xfer s f t amt) tt) ->
  (bal s f < amt -> E s EInsufficientFunds) ->
  wp (send_coins f t amt) s Q E.
Proof.
  intros Ha Hf Ht Hty HQ HE. unfold xfer in HQ. destruct (Z.ltb_spec 0 amt).
  - eapply wp_mono; [apply send_coins_cases; lia| |]; cbn.
    + intros s' [] (Hb & _ & ->). auto.
    + intros s' e [(Hb & -> & ->)|[(_ & Hn & _)|(_ & [Hm|Hm] & _)]]; auto; exfalso; auto.
      apply Hn. unfold send_allowed. auto.
  - assert (amt = 0) as -> by lia. apply wp_ret. auto.
Qed.

(** claimModuleYield *)
Lemma claim_module_spec c a s (Q : state -> Z -> Prop) (E : state -> err -> Prop) :
  (yield_of s a <= bal s YieldA \/ yield_of s a = 0 -> Q (pay s a (yield_of s a)) (yield_of s a)) ->
  (0 < yield_of s a -> c_blocked c a = true \/ bal s YieldA < yield_of s a -> forall e, E s e) ->
  wp (claim_module_yield c a) s Q E.
Proof.
  intros HQ HE. unfold claim_module_yield. apply wp_bind, get_yield_of_spec, wp_bind.
  pose proof (yield_of_nonneg s a) as Hn. set (y := yield_of s a) in *.
  unfold whenb. destruct (Z.ltb_spec 0 y).
  - apply wp_bind, new_coins_spec. intros _. unfold send_to_account.
    destruct (c_blocked c a); [apply wp_fail; auto|].
    apply send_yield_spec; [lia| |].
    + intros. apply wp_ret. auto.
    + auto.
  - apply wp_ret, wp_ret. unfold pay in HQ. rewrite (proj2 (Z.ltb_ge 0 y)) in HQ by lia.
    apply HQ. right. lia.
Qed.

(** claimStakedVaultYield: the yield of the staked vault goes to the flexible
    vault, together with the principal it is worth. *)
Definition shiftp (s : state) (yp : Z) : state :=
  s <| st_dollar; d_principal := addz FlexibleA yp (addz StakedA (- yp) (d_principal (st_dollar s))) |>.
Lemma yield_principal_err y i e : yield_principal y i = PErr e -> False.
Proof.
  unfold yield_principal, pbind, dec_quo_int, dec_quo, dec_truncate, int_chk.
  repeat (case_match; try discriminate); congruence.
Qed.
Lemma claim_staked_spec c s y (Q : state -> Z -> Prop) (E : state -> err -> Prop) :
  y = yield_of s StakedA ->
  (y = 0 -> Q s 0) ->
  (forall yp, 0 < y <= bal s YieldA -> yield_principal y (current_index s) = POk yp ->
     Q (shiftp (send_result s YieldA FlexibleA y) yp) y) ->
  (0 < y -> c_blocked c FlexibleA = true \/ bal s YieldA < y -> forall e, E s e) ->
  wp (claim_staked_vault_yield c) s Q E.
Proof.
  intros Hy HQ0 HQ HE. unfold claim_staked_vault_yield. apply wp_bind, get_yield_of_spec.
  pose proof (yield_of_nonneg s StakedA) as Hn. rewrite <- Hy in Hn |- *. clear Hy.
  destruct (Z.ltb_spec 0 y); cbn [negb]; [|apply wp_ret, HQ0; lia].
  apply wp_bind, new_coins_spec. intros _. unfold send_to_account.
  destruct (c_blocked c FlexibleA) eqn:Eb; [apply wp_bind, wp_fail; auto|].
  apply wp_bind, send_yield_spec; [lia| |]; [|auto].
  intros Hb. unfold pay. rewrite (proj2 (Z.ltb_lt 0 y)) by assumption.
  unfold get_index. apply wp_bind, wp_gets, wp_bind, wp_lift.
  2:{ intros e He. by apply yield_principal_err in He. }
  intros yp Hyp. unfold get_principal, set_principal.
  apply wp_bind, wp_gets, wp_bind, wp_lift.
  2:{ intros e He. by apply int_sub_err in He. }
  intros z Hz%int_sub_ok. subst z. apply wp_bind, wp_modify, wp_bind, wp_gets, wp_bind, wp_lift.
  2:{ intros e He. by apply int_add_err in He. }
  intros z Hz%int_add_ok. subst z. apply wp_bind, wp_modify, wp_ret.
  assert (HH : 0 < y <= bal s YieldA) by (destruct Hb as [Hb|Hb]; [split; assumption|exfalso; lia]). pose proof (HQ yp HH Hyp) as G.
  unfold shiftp, addz in G. rewrite send_from_yield in *.
  exact G.
Qed.

(** * Issuing and retiring coins *)

Definition mint_result (s : state) (amt : Z) : state :=
  s <| st_bank := mk_bank (addz ModuleA amt (bk_bal (st_bank s))) (supply s + amt) (bk_sends (st_bank s)) |>.
Lemma mint_coins_spec amt s (Q : state -> unit -> Prop) E :
  0 <= amt ->
  Q (if 0 <? amt then mint_result s amt else s) tt -> wp (mint_coins amt) s Q E.
Proof.
  intros Ha HQ. unfold mint_coins. destruct (Z.eqb_spec amt 0) as [->|Hne].
  { apply wp_ret. exact HQ. }
  rewrite (proj2 (Z.ltb_lt 0 amt)) in HQ by lia.
  unfold add_coins, set_bal. apply wp_bind, wp_bind, wp_gets, wp_bind, wp_lift.
  2:{ intros e He. by apply int_add_err in He. }
  intros z Hz%int_add_ok. subst z. apply wp_modify, wp_bind, wp_gets, wp_bind, wp_lift.
  2:{ intros e He. by apply int_add_err in He. }
  intros z Hz%int_add_ok. subst z. apply wp_modify.
  unfold mint_result, addz in HQ. destruct s as [[] d p v w]. exact HQ.
Qed.
Definition burn_result (s : state) (amt : Z) : state :=
  s <| st_bank := mk_bank (addz ModuleA (- amt) (bk_bal (st_bank s))) (supply s - amt) (bk_sends (st_bank s)) |>.
Lemma burn_coins_spec amt s (Q : state -> unit -> Prop) (E : state -> err -> Prop) :
  0 < amt ->
  (amt <= bal s ModuleA -> Q (burn_result s amt) tt) ->
  (bal s ModuleA < amt -> E s EInsufficientFunds) ->
  wp (burn_coins amt) s Q E.
Proof.
  intros Ha HQ HE. unfold burn_coins. rewrite (proj2 (Z.eqb_neq amt 0)) by lia.
  unfold sub_coins, set_bal. apply wp_bind, wp_bind, wp_gets.
  destruct (Z.ltb_spec (bal s ModuleA) amt); [apply wp_fail; auto|].
  apply wp_modify, wp_modify. specialize (HQ ltac:(lia)).
  unfold burn_result, addz in HQ. destruct s as [[] d p v w]. exact HQ.
Qed.

(** State after the first half of UpdateIndex: index set, [n] minted to the yield
    account, [d] booked in the statistic. *)
Definition accrued (s : state) (i n d : Z) : state :=
  let s1 := s <| st_dollar; d_index := i |> in
  let s2 := if 0 <? n then send_result (mint_result s1 n) ModuleA YieldA n else s1 in
  s2 <| st_dollar; d_stats; ds_yield := ds_yield (d_stats (st_dollar s)) + d |>.

Lemma accrue_spec i s n (Q : state -> unit -> Prop) (E : state -> err -> Prop) :
  n = present (total_principal s) i - supply s ->
  0 <= bal s ModuleA ->
  (0 <= n -> Q (accrued s i n n) tt) ->
  (0 < n -> int_fits (ds_yield (d_stats (st_dollar s)) + n) = false -> E (accrued s i n 0) EOverflow) ->
  wp (accrue_yield i) s Q E.
Proof.
  intros Hn Hb HQ HE. unfold accrue_yield, get_total_principal.
  apply wp_bind, wp_modify, wp_bind, wp_gets, wp_bind, wp_gets, wp_bind, wp_lift.
  2:{ intros e He. by apply present_amount_err in He. }
  intros x ->%present_amount_ok. apply wp_bind, wp_lift.
  2:{ intros e He. by apply int_sub_err in He. }
  intros z Hz%int_sub_ok.
  assert (z = n) as -> by (rewrite Hn, Hz; done). clear Hz Hn.
  apply wp_bind, new_coins_spec. intros Hn.
  unfold accrued in HQ, HE. unfold whenb. destruct (Z.ltb_spec 0 n) as [Hpos|Hz].
  - apply wp_bind, mint_coins_spec; [lia|]. rewrite (proj2 (Z.ltb_lt 0 n)) by lia.
    apply wp_bind. eapply wp_mono; [apply send_coins_cases; lia| |]; cbn beta.
    + intros s' [] (_ & _ & ->). unfold increment_total_yield.
      apply wp_bind, wp_gets, wp_bind, wp_lift.
      * intros z Hz. pose proof (int_safe_add_ok _ _ _ Hz). subst z. apply wp_modify.
        specialize (HQ ltac:(lia)). exact HQ.
      * intros e He. pose proof (int_safe_add_err _ _ _ He). subst e.
        assert (G := HE ltac:(lia)). clear HE HQ.
        unfold int_safe_add in He.
        match type of He with context [int_fits ?t] => destruct (int_fits t) eqn:Ef; [discriminate|];
          assert (Ef' : int_fits (ds_yield (d_stats (st_dollar s)) + n) = false) by exact Ef end.
        specialize (G Ef'). rewrite Z.add_0_r in G. destruct s as [[] [? ? ? [] ? ? ?] p v w].
        exact G.
    + intros s' e [(Hlt & _)|[(_ & Hna & _)|(_ & _ & _ & Hno & _)]]; exfalso.
      * unfold mint_result, bal in Hlt; cbn in Hlt. unfold addz in Hlt.
        rewrite lookup_insert in Hlt. cbn in Hlt.
        unfold bal in Hb. unfold mget in Hlt. lia.
      * apply Hna. unfold send_allowed. auto.
      * done.
  - apply wp_ret. assert (n = 0) as -> by lia. specialize (HQ ltac:(lia)).
    rewrite Z.add_0_r in HQ. destruct s as [[] [? ? ? [] ? ? ?] p v w]. exact HQ.
Qed.

(** * External yield *)

Definition retry (s : state) (k : Z * string) : Z := mget (d_retry (st_dollar s)) k.
Definition ext_yield (s : state) (k : Z * string) : Z := mget (d_ext_yield (st_dollar s)) k.
Definition add_retry (s : state) (k : Z * string) (z : Z) : state :=
  s <| st_dollar; d_retry := addz k z (d_retry (st_dollar s)) |>.
Definition del_retry (s : state) (k : Z * string) : state :=
  if 0 <? retry s k then s <| st_dollar; d_retry := delete k (d_retry (st_dollar s)) |> else s.
Definition add_ext (s : state) (k : Z * string) (z : Z) : state :=
  s <| st_dollar; d_ext_yield := addz k z (d_ext_yield (st_dollar s)) |>.
Definition push (s : state) (p : packet) : state :=
  s <| st_world; x_inflight := x_inflight (st_world s) ++ [p] |>.
Definition yield_packet (c : config) (chan rc : string) (amt : Z) : packet :=
  mk_packet transfer_port chan
    (Some (mk_ft (c_denom c) (Some amt) (c_enc c (AEscrow transfer_port chan)) rc)).

Lemma retry_remove_spec p id s (Q : state -> Z -> Prop) E :
  Q (del_retry s (p, id)) (retry s (p, id)) -> wp (get_retry_and_remove p id) s Q E.
Proof.
  intros HQ. unfold get_retry_and_remove, get_retry. apply wp_bind, wp_gets, wp_bind.
  unfold del_retry in HQ. fold (mget (d_retry (st_dollar s)) (p, id)). fold (retry s (p, id)).
  unfold whenb. destruct (0 <? retry s (p, id)); [apply wp_modify, wp_ret|apply wp_ret, wp_ret]; exact HQ.
Qed.
Lemma increment_retry_spec p id z s (Q : state -> unit -> Prop) E :
  Q (add_retry s (p, id) z) tt -> wp (increment_retry p id z) s Q E.
Proof.
  intros HQ. unfold increment_retry, get_retry. apply wp_bind, wp_gets, wp_bind, wp_lift.
  2:{ intros e He. by apply int_add_err in He. }
  intros ? Hz%int_add_ok. subst. apply wp_modify. exact HQ.
Qed.
Lemma increment_ext_spec p id z s (Q : state -> unit -> Prop) E :
  Q (add_ext s (p, id) z) tt -> wp (increment_ext_yield p id z) s Q E.
Proof.
  intros HQ. unfold increment_ext_yield. apply wp_bind, wp_gets, wp_bind, wp_lift.
  2:{ intros e He. by apply int_add_err in He. }
  intros ? Hz%int_add_ok. subst. apply wp_modify. exact HQ.
Qed.

(** ICS-20 transfer of USDN: nothing, only the escrowing (then an error), or both. *)
Lemma ibc_transfer_spec c o chan sender rc amt s (Q : state -> unit -> Prop) (E : state -> err -> Prop) :
  0 < amt -> sender <> ModuleA ->
  let esc := AEscrow transfer_port chan in
  let s1 := send_result s sender esc amt in
  (amt <= bal s sender -> o = XOk -> has_recipient s1 IBC chan = true ->
    Q (push s1 (mk_packet transfer_port chan (Some (mk_ft (c_denom c) (Some amt) (c_enc c sender) rc)))) tt) ->
  (forall e, E s e) ->
  (amt <= bal s sender -> o <> XReject -> forall e, E s1 e) ->
  wp (ibc_transfer c o chan sender rc amt) s Q E.
Proof.
  intros Ha Hs esc s1 HQ HE HE1. unfold ibc_transfer.
  destruct o; [apply wp_fail; auto| |].
  all: apply wp_bind, send_plain_spec; auto; [lia|]; intros Hb; unfold xfer;
    rewrite (proj2 (Z.ltb_lt 0 amt)) by lia; fold esc; fold s1;
    assert (amt <= bal s sender) by lia;
    unfold ics4_send_packet; apply wp_bind, wp_gets; cbn [pk_data ft_denom pk_chan];
    rewrite bool_decide_true by auto; destruct (has_recipient s1 IBC chan) eqn:Eh; cbn [negb andb];
    try (apply wp_fail; apply HE1; [assumption|discriminate]).
  apply wp_modify. apply HQ; auto.
Qed.

Lemma claim_ibc_one_spec c x chan rc s y r (Q : state -> unit -> Prop) (E : state -> err -> Prop) :
  let esc := AEscrow transfer_port chan in
  y = yield_of s esc ->
  r = retry s (IBC, chan) ->
  let s2 := del_retry (pay s esc y) (IBC, chan) in
  (y + r <= 0 -> y <= bal s YieldA \/ y = 0 -> Q s2 tt) ->
  (0 < y + r -> y <= bal s YieldA \/ y = 0 -> y + r <= bal s2 esc -> o_ibc x chan = XOk ->
     Q (add_ext (push (send_result s2 esc esc (y + r)) (yield_packet c chan rc (y + r))) (IBC, chan) y) tt) ->
  (forall s3, 0 < y + r -> y <= bal s YieldA \/ y = 0 ->
     (s3 = s2 \/ y + r <= bal s2 esc /\ s3 = send_result s2 esc esc (y + r)) ->
     Q (add_ext (add_retry s3 (IBC, chan) (y + r)) (IBC, chan) y) tt) ->
  (0 < y -> c_blocked c esc = true \/ bal s YieldA < y -> forall e, E s e) ->
  wp (claim_ibc_one c x (chan, rc)) s Q E.
Proof.
  intros esc Hy Hr s2 HQ0 HQ1 HQ2 HE. unfold claim_ibc_one. cbn [fst snd].
  fold esc. apply wp_bind, claim_module_spec; rewrite <- Hy; [|auto].
  intros Hb. apply wp_bind, retry_remove_spec. fold s2.
  assert (Hr' : retry (pay s esc y) (IBC, chan) = r).
  { rewrite Hr. unfold pay. destruct (0 <? y); [|done]. by rewrite send_from_yield. }
  rewrite Hr'. apply wp_bind, wp_lift.
  2:{ intros e He. by apply int_add_err in He. }
  intros z Hz%int_add_ok. subst z.
  destruct (Z.ltb_spec 0 (y + r)); cbn [negb].
  2:{ apply wp_ret, HQ0; [lia|auto]. }
  apply wp_bind, wp_try.
  assert (Hfail : forall s3, s3 = s2 \/ y + r <= bal s2 esc /\ s3 = send_result s2 esc esc (y + r) ->
    wp (whenb (negb false) (increment_retry IBC chan (y + r));;; increment_ext_yield IBC chan y) s3 Q E).
  { intros s3 H3. cbn [negb whenb]. apply wp_bind, increment_retry_spec, increment_ext_spec. auto. }
  apply ibc_transfer_spec; [lia|done|..].
  - intros Hb2 Ho _. cbn [negb whenb]. apply wp_bind, wp_ret, increment_ext_spec. auto.
  - intros _. apply Hfail. auto.
  - intros Hb2 _ _. apply Hfail. auto.
Qed.

Definition set_token (s : state) (tok col : Z) : state :=
  s <| st_world; x_tokens := <[tok := col]> (x_tokens (st_world s)) |>.
Definition dispatch (s : state) (m : hypmsg) : state :=
  s <| st_world; x_dispatched := x_dispatched (st_world s) ++ [m] |>.
Lemma warp_transfer_spec o tok col sender domain rc amt s (Q : state -> unit -> Prop) (E : state -> err -> Prop) :
  0 < amt -> sender <> ModuleA ->
  let s1 := set_token (send_result s sender WarpA amt) tok (col + amt) in
  (amt <= bal s sender -> o = XOk -> Q (dispatch s1 (mk_hypmsg sender tok domain rc amt)) tt) ->
  (forall e, E s e) ->
  (amt <= bal s sender -> o = XFail -> forall e, E s1 e) ->
  wp (warp_transfer o tok col sender domain rc amt) s Q E.
Proof.
  intros Ha Hs s1 HQ HE HE1. unfold warp_transfer.
  destruct o; [apply wp_fail; auto| |].
  all: apply wp_bind, send_plain_spec; auto; [lia|]; intros Hb; unfold xfer;
    rewrite (proj2 (Z.ltb_lt 0 amt)) by lia; apply wp_bind, wp_lift;
    [|intros e He; by apply int_add_err in He]; intros z Hz%int_add_ok; subst z;
    apply wp_bind, wp_modify.
  - apply wp_fail, HE1; [lia|done].
  - apply wp_modify, HQ; [lia|done].
Qed.

Lemma yield_portion_err a b y e : yield_portion a b y = PErr e -> False.
Proof.
  unfold yield_portion, pbind, dec_quo_int, dec_mul_int, dec_truncate, int_chk.
  repeat (case_match; try discriminate); congruence.
Qed.

Lemma claim_hyp_one_spec c x total y h s (Q : state -> unit -> Prop) (E : state -> err -> Prop) :
  let k := (HYPERLANE, hr_id h) in
  let s2 := del_retry s k in
  let r := retry s k in
  (forall q, yield_portion (hr_collateral h) total y = POk q ->
   (q + r <= 0 -> Q s2 tt) /\
   (0 < q + r -> q + r <= bal s2 WarpA -> o_hyp x (hr_id h) = XOk -> forall domain rc,
     x_routers (st_world s) !! hr_token h = Some [domain] -> c_hex c (hr_recipient h) = Some rc ->
     Q (add_ext (dispatch (set_token (send_result s2 WarpA WarpA (q + r)) (hr_token h)
           (hr_collateral h + (q + r))) (mk_hypmsg WarpA (hr_token h) domain rc (q + r))) k q) tt) /\
   (forall s3, 0 < q + r ->
     s3 = s2 \/ q + r <= bal s2 WarpA /\
       s3 = set_token (send_result s2 WarpA WarpA (q + r)) (hr_token h) (hr_collateral h + (q + r)) ->
     Q (add_ext (add_retry s3 k (q + r)) k q) tt) /\
   (0 < q + r -> (forall d, x_routers (st_world s) !! hr_token h <> Some [d]) \/ c_hex c (hr_recipient h) = None ->
     forall e, E s2 e)) ->
  wp (claim_hyp_one c x total y h) s Q E.
Proof.
  intros k s2 r H. unfold claim_hyp_one. apply wp_bind, wp_lift.
  2:{ intros e He. by apply yield_portion_err in He. }
  intros q Hq. destruct (H q Hq) as (HQ0 & HQ1 & HQ2 & HE). clear H.
  apply wp_bind, retry_remove_spec. fold k s2 r. apply wp_bind, wp_lift.
  2:{ intros e He. by apply int_add_err in He. }
  intros z Hz%int_add_ok. subst z.
  destruct (Z.ltb_spec 0 (q + r)); cbn [negb]; [|apply wp_ret, HQ0; lia].
  assert (Hrt : x_routers (st_world s2) = x_routers (st_world s)).
  { subst s2. unfold del_retry. by destruct (0 <? retry s k). }
  unfold get_router. apply wp_bind, wp_bind, wp_gets. rewrite Hrt.
  destruct (x_routers (st_world s) !! hr_token h) as [[|d [|]]|] eqn:Er; cbn [default from_option id].
  1,3,4: apply wp_fail, HE; [lia|left; congruence].
  apply wp_ret. destruct (c_hex c (hr_recipient h)) as [rcb|] eqn:Ex.
  2:{ apply wp_fail, HE; [lia|auto]. }
  apply wp_bind, wp_try.
  assert (Hfail : forall s3, s3 = s2 \/ q + r <= bal s2 WarpA /\
       s3 = set_token (send_result s2 WarpA WarpA (q + r)) (hr_token h) (hr_collateral h + (q + r)) ->
    wp (whenb (negb false) (increment_retry HYPERLANE (hr_id h) (q + r));;;
        increment_ext_yield HYPERLANE (hr_id h) q) s3 Q E).
  { intros s3 H3. cbn [negb whenb]. apply wp_bind, increment_retry_spec, increment_ext_spec. auto. }
  apply warp_transfer_spec; [lia|done|..].
  - intros Hb Ho. cbn [negb whenb]. apply wp_bind, wp_ret, increment_ext_spec. auto.
  - intros _. apply Hfail. auto.
  - intros Hb _ _. apply Hfail. auto.
Qed.

(** * The second half of UpdateIndex as a sequence of elementary effects *)

(** Accounts whose yield is claimed on an index update. *)
Definition module_holder (a : addr) : Prop :=
  a = FlexibleA \/ a = StakedA \/ a = WarpA \/ exists chan, a = AEscrow transfer_port chan.

(** Changes to the external-yield books, the packets in flight and the hyperlane
    tokens only. *)
Definition books (c : config) (s s' : state) : Prop :=
  exists E R F T D,
    s' = mk_state (st_bank s)
           (st_dollar s <| d_ext_yield := E |> <| d_retry := R |>)
           (st_portal s) (st_vaults s)
           (st_world s <| x_inflight := x_inflight (st_world s) ++ F |>
              <| x_tokens := T |> <| x_dispatched := D |>) /\
    Forall (fun p => exists chan rc amt, 0 < amt /\ p = yield_packet c chan rc amt) F.

Definition record_reward (s : state) (i r : Z) : state :=
  s <| st_vaults; v_rewards := <[i := mk_reward i (v_total_flex (st_vaults s)) r]> (v_rewards (st_vaults s)) |>.

Inductive upd (c : config) (i : Z) (s : state) : state -> Prop :=
| upd_pay a y : module_holder a -> y = yield_of s a -> 0 < y <= bal s YieldA ->
    upd c i s (send_result s YieldA a y)
| upd_season1_a fy s1 : v_ended (st_vaults s) = false ->
    fy = yield_of s FlexibleA -> fy <= bal s YieldA \/ fy = 0 ->
    s1 = pay s FlexibleA fy -> yield_of s1 StakedA = 0 ->
    upd c i s (record_reward s1 i fy)
| upd_season1_b fy s1 sy yp : v_ended (st_vaults s) = false ->
    fy = yield_of s FlexibleA -> fy <= bal s YieldA \/ fy = 0 ->
    s1 = pay s FlexibleA fy -> sy = yield_of s1 StakedA -> 0 < sy <= bal s1 YieldA ->
    yield_principal sy (current_index s1) = POk yp ->
    upd c i s (record_reward (shiftp (send_result s1 YieldA FlexibleA sy) yp) i (sy + fy))
| upd_season2 y : v_ended (st_vaults s) = true ->
    y = yield_of s StakedA -> 0 < y <= bal s YieldA ->
    upd c i s (send_result (send_result s YieldA StakedA y) StakedA (v_collector (st_vaults s)) y)
| upd_self a amt : a = WarpA \/ (exists chan, a = AEscrow transfer_port chan) ->
    0 < amt <= bal s a ->
    upd c i s (send_result s a a amt)
| upd_books s' : books c s s' -> upd c i s s'.

Definition upds (c : config) (i : Z) : state -> state -> Prop := rtc (upd c i).

Lemma upds_refl c i s : upds c i s s.
Proof. constructor. Qed.
Lemma upds_one c i s s' : upd c i s s' -> upds c i s s'.
Proof. apply rtc_once. Qed.
Lemma upds_r c i s s' s'' : upds c i s s' -> upd c i s' s'' -> upds c i s s''.
Proof. apply rtc_r. Qed.
Lemma upds_trans c i s s' s'' : upds c i s s' -> upds c i s' s'' -> upds c i s s''.
Proof. intros. by etrans. Qed.
Local Hint Resolve upds_refl upds_one : core.

Lemma pay_upds c i s a y :
  module_holder a -> y = yield_of s a -> y <= bal s YieldA \/ y = 0 -> upds c i s (pay s a y).
Proof.
  intros Ha Hy Hb. unfold pay. destruct (Z.ltb_spec 0 y); auto.
  apply upds_one. constructor; auto. lia.
Qed.

Lemma books_refl c s : books c s s.
Proof.
  exists (d_ext_yield (st_dollar s)), (d_retry (st_dollar s)), [], (x_tokens (st_world s)), (x_dispatched (st_world s)).
  split; [|constructor]. destruct s as [b [] p v []]; cbn. by rewrite app_nil_r.
Qed.
Lemma books_trans c s s' s'' : books c s s' -> books c s' s'' -> books c s s''.
Proof.
  intros (E & R & F & T & D & -> & HF) (E' & R' & F' & T' & D' & -> & HF').
  exists E', R', (F ++ F'), T', D'. split; [|by apply Forall_app].
  destruct s as [b [] p v []]; cbn. by rewrite app_assoc.
Qed.
Lemma books_del_retry c s k : books c s (del_retry s k).
Proof.
  unfold del_retry. destruct (0 <? retry s k); [|apply books_refl].
  exists (d_ext_yield (st_dollar s)), (delete k (d_retry (st_dollar s))), [], (x_tokens (st_world s)), (x_dispatched (st_world s)).
  split; [|constructor]. destruct s as [b [] p v []]; cbn. by rewrite app_nil_r.
Qed.
Lemma books_add_retry c s k z : books c s (add_retry s k z).
Proof.
  exists (d_ext_yield (st_dollar s)), (addz k z (d_retry (st_dollar s))), [], (x_tokens (st_world s)), (x_dispatched (st_world s)).
  split; [|constructor]. destruct s as [b [] p v []]; cbn. by rewrite app_nil_r.
Qed.
Lemma books_add_ext c s k z : books c s (add_ext s k z).
Proof.
  exists (addz k z (d_ext_yield (st_dollar s))), (d_retry (st_dollar s)), [], (x_tokens (st_world s)), (x_dispatched (st_world s)).
  split; [|constructor]. destruct s as [b [] p v []]; cbn. by rewrite app_nil_r.
Qed.
Lemma books_push c s chan rc amt : 0 < amt -> books c s (push s (yield_packet c chan rc amt)).
Proof.
  intros. exists (d_ext_yield (st_dollar s)), (d_retry (st_dollar s)), [yield_packet c chan rc amt], (x_tokens (st_world s)), (x_dispatched (st_world s)).
  split; [by destruct s as [b [] p v []]|]. constructor; [eauto|constructor].
Qed.
Lemma books_set_token c s tok col : books c s (set_token s tok col).
Proof.
  exists (d_ext_yield (st_dollar s)), (d_retry (st_dollar s)), [], (<[tok := col]> (x_tokens (st_world s))), (x_dispatched (st_world s)).
  split; [|constructor]. destruct s as [b [] p v []]; cbn. by rewrite app_nil_r.
Qed.
Lemma books_dispatch c s m : books c s (dispatch s m).
Proof.
  exists (d_ext_yield (st_dollar s)), (d_retry (st_dollar s)), [], (x_tokens (st_world s)), (x_dispatched (st_world s) ++ [m]).
  split; [|constructor]. destruct s as [b [] p v []]; cbn. by rewrite app_nil_r.
Qed.
Local Hint Resolve books_del_retry books_add_retry books_add_ext books_push books_set_token books_dispatch : core.

Lemma claim_ibc_one_upds c x i cr s :
  wp (claim_ibc_one c x cr) s (fun s' _ => upds c i s s') (fun s' _ => upds c i s s').
Proof.
  destruct cr as [chan rc].
  assert (Hh : module_holder (AEscrow transfer_port chan)) by (unfold module_holder; eauto).
  apply (claim_ibc_one_spec c x chan rc s _ _ _ _ eq_refl eq_refl); cbn zeta.
  all: set (esc := AEscrow transfer_port chan) in *; set (y := yield_of s esc); set (r := retry s (IBC, chan));
    set (s2 := del_retry (pay s esc y) (IBC, chan));
    assert (Hs2 : y <= bal s YieldA \/ y = 0 -> upds c i s s2)
      by (intros; apply (upds_r _ _ _ (pay s esc y)); [by apply pay_upds|apply upd_books; subst s2; auto]).
  - auto.
  - intros Hp Hb Hbal _.
    apply (upds_r _ _ _ (send_result s2 esc esc (y + r))).
    + eapply upds_r; [auto|]. eapply upd_self; [subst esc; eauto|lia].
    + apply upd_books. eapply books_trans; [|apply books_add_ext]. by apply books_push.
  - intros s3 Hp Hb H3. apply (upds_r _ _ _ s3).
    + destruct H3 as [->|[Hb3 ->]]; [auto|]. eapply upds_r; [auto|]. eapply upd_self; [subst esc; eauto|lia].
    + apply upd_books. eapply books_trans; [|apply books_add_ext]. auto.
  - auto.
Qed.

Lemma claim_hyp_one_upds c x i total y h s :
  wp (claim_hyp_one c x total y h) s (fun s' _ => upds c i s s') (fun s' _ => upds c i s s').
Proof.
  apply claim_hyp_one_spec. intros q _.
  assert (H0 : upds c i s (del_retry s (HYPERLANE, hr_id h))) by (apply upds_one, upd_books; auto).
  split; [auto|]. split; [|split].
  - intros Hp Hb _ domain rc _ _. eapply upds_r; [eapply upds_r; [exact H0|]|].
    + apply (upd_self c i _ WarpA); eauto.
    + apply upd_books. eapply books_trans; [|apply books_add_ext]. eapply books_trans; [|apply books_dispatch]. auto.
  - intros s3 Hp H3. eapply upds_trans.
    + instantiate (1 := s3). destruct H3 as [->|[Hb ->]]; [exact H0|].
      eapply upds_r; [eapply upds_r; [exact H0|]|].
      * apply (upd_self c i _ WarpA); eauto.
      * apply upd_books. auto.
    + apply upds_one, upd_books. eapply books_trans; [|apply books_add_ext]. auto.
  - auto.
Qed.

Lemma for_each_upds {A} c i (f : A -> M unit) l s :
  (forall a s, wp (f a) s (fun s' _ => upds c i s s') (fun s' _ => upds c i s s')) ->
  wp (for_each f l) s (fun s' _ => upds c i s s') (fun s' _ => upds c i s s').
Proof.
  intros Hf. revert s. induction l as [|a l IH]; intros s; cbn.
  - apply upds_refl.
  - apply wp_bind. eapply wp_mono; [apply Hf| |auto]. intros s1 ? H1.
    eapply wp_mono; [apply IH| |]; intros s2 ? H2; exact (upds_trans _ _ _ _ _ H1 H2).
Qed.

Lemma collect_routes_spec c l : forall total s (Q : state -> _ -> Prop) (E : state -> err -> Prop),
  (forall r, Q s r) -> (forall e, E s e) -> wp (collect_routes c l total) s Q E.
Proof.
  induction l as [|[id rc] l IH]; intros total s Q E HQ HE; cbn.
  - apply HQ.
  - destruct (c_hex c id); [|apply wp_fail; auto].
    apply wp_bind, wp_gets. destruct (x_tokens (st_world s) !! internal_id l0); [|apply wp_fail; auto].
    apply wp_bind, wp_lift; [|intros e He; by apply int_add_err in He].
    intros t _. apply wp_bind, IH; auto. intros r. apply wp_ret. auto.
Qed.

Lemma claim_external_ibc_upds c x i s :
  wp (claim_external_ibc c x) s (fun s' _ => upds c i s s') (fun s' _ => upds c i s s').
Proof. unfold claim_external_ibc. apply wp_bind, wp_gets, for_each_upds, claim_ibc_one_upds. Qed.
Lemma claim_external_hyp_upds c x i s :
  wp (claim_external_hyp c x) s (fun s' _ => upds c i s s') (fun s' _ => upds c i s s').
Proof.
  unfold claim_external_hyp. apply wp_bind, wp_gets, wp_bind, claim_module_spec; [|auto].
  intros Hb. assert (H0 : upds c i s (pay s WarpA (yield_of s WarpA))).
  { apply pay_upds; auto. unfold module_holder; auto. }
  destruct (0 <? yield_of s WarpA); cbn [negb]; [|apply wp_ret; auto].
  apply wp_bind, collect_routes_spec; [|auto].
  intros [tot rs]. cbn [fst snd]. destruct (0 <? tot); cbn [negb]; [|apply wp_ret; auto].
  eapply wp_mono; [apply for_each_upds; intros; apply claim_hyp_one_upds| |]; intros s2 ? H2; exact (upds_trans _ _ _ _ _ H0 H2).
Qed.

Lemma season_one_upds c i s :
  v_ended (st_vaults s) = false ->
  wp (vaults_yield_season_one c i) s (fun s' _ => upds c i s s') (fun s' _ => upds c i s s').
Proof.
  intros He. unfold vaults_yield_season_one. apply wp_bind, claim_module_spec; [|auto].
  intros Hb. set (fy := yield_of s FlexibleA) in *. set (s1 := pay s FlexibleA fy).
  assert (H0 : upds c i s s1).
  { apply pay_upds; auto. unfold module_holder; auto. }
  apply wp_bind, (claim_staked_spec c s1 _ _ _ eq_refl).
  - intros Hz. apply wp_bind, wp_gets, wp_bind, wp_lift; [|intros e He'; by apply int_add_err in He'].
    intros z Hz'%int_add_ok. subst z. apply wp_modify. rewrite Z.add_0_l.
    apply upds_one. by eapply upd_season1_a.
  - intros yp Hy Hyp. apply wp_bind, wp_gets, wp_bind, wp_lift; [|intros e He'; by apply int_add_err in He'].
    intros z Hz'%int_add_ok. subst z. apply wp_modify.
    apply upds_one. by eapply upd_season1_b.
  - auto.
Qed.
Lemma season_two_upds c i s :
  v_ended (st_vaults s) = true -> v_collector (st_vaults s) <> ModuleA -> v_collector (st_vaults s) <> YieldA ->
  wp (vaults_yield_season_two c) s (fun s' _ => upds c i s s') (fun s' _ => upds c i s s').
Proof.
  intros He Hm Hy. unfold vaults_yield_season_two. apply wp_bind, claim_module_spec; [|auto].
  intros Hb. set (y := yield_of s StakedA) in *.
  assert (H0 : upds c i s (pay s StakedA y)).
  { apply pay_upds; auto. unfold module_holder; auto. }
  destruct (Z.ltb_spec 0 y); cbn [negb]; [|apply wp_ret; auto].
  apply wp_bind, wp_gets, wp_bind, new_coins_spec. intros _.
  assert (Hv : st_vaults (pay s StakedA y) = st_vaults s). { unfold pay. by destruct (0 <? y). }
  rewrite Hv. apply send_plain_spec; auto; [lia|].
  intros Hbs. apply upds_one. unfold xfer, pay. rewrite (proj2 (Z.ltb_lt 0 y)) by lia.
  apply upd_season2; auto. lia.
Qed.

Definition good_collector (s : state) : Prop :=
  v_collector (st_vaults s) <> ModuleA /\ v_collector (st_vaults s) <> YieldA.

(** The whole of UpdateIndex. *)
Lemma update_index_spec c x i s n (Q : state -> unit -> Prop) (E : state -> err -> Prop) :
  n = present (total_principal s) i - supply s ->
  0 <= bal s ModuleA -> good_collector s ->
  (current_index s < i -> 0 <= n -> forall s', upds c i (accrued s i n n) s' -> Q s' tt) ->
  (i <= current_index s -> E s EDecreasingIndex) ->
  (current_index s < i -> 0 <= n -> forall d s' e,
     (d = n \/ d = 0 /\ 0 < n /\ int_fits (ds_yield (d_stats (st_dollar s)) + n) = false /\ s' = accrued s i n d) ->
     upds c i (accrued s i n d) s' -> E s' e) ->
  wp (update_index c x i) s Q E.
Proof.
  intros Hn Hb [Hcm Hcy] HQ HE0 HE. unfold update_index, get_index.
  apply wp_bind, wp_gets. destruct (Z.leb_spec i (current_index s)); [apply wp_fail; auto|].
  apply wp_bind, (accrue_spec i s n); auto.
  2:{ intros Hp Hf. eapply HE; [lia..|right; eauto|apply upds_refl]. }
  intros Hn0. set (s1 := accrued s i n n) in *.
  assert (Hv : st_vaults s1 = st_vaults s).
  { subst s1. unfold accrued. by destruct (0 <? n). }
  apply wp_bind, wp_gets. rewrite Hv.
  apply wp_bind.
  apply (wp_mono _ _ (fun s' _ => upds c i s1 s') _ (fun s' _ => upds c i s1 s')).
  - destruct (v_ended (st_vaults s)) eqn:Ee.
    + apply season_two_upds; by rewrite Hv.
    + apply season_one_upds; by rewrite Hv.
  - intros s2 [] H2. apply wp_bind. eapply wp_mono; [apply (claim_external_ibc_upds c x i)| |].
    + intros s3 [] H3. assert (H03 := upds_trans _ _ _ _ _ H2 H3).
      eapply wp_mono; [apply (claim_external_hyp_upds c x i)| |].
      * intros s4 [] H4. apply HQ; [lia..|]. exact (upds_trans _ _ _ _ _ H03 H4).
      * intros s4 e H4. apply (HE ltac:(lia) ltac:(lia) n); [by left|]. exact (upds_trans _ _ _ _ _ H03 H4).
    + intros s3 e H3. apply (HE ltac:(lia) ltac:(lia) n); [by left|]. exact (upds_trans _ _ _ _ _ H2 H3).
  - intros s2 e H2. apply (HE ltac:(lia) ltac:(lia) n); [by left|]. exact H2.
Qed.
