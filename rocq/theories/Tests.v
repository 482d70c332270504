(** The unit tests of the repository replayed on the model: the steps and the
    expected values are those of keeper/msg_server_vaults_test.go. *)
From Verif Require Import Spec Concrete Queries Genesis.
Import Coq.Init.Byte.

(** utils/mocks/dollar.go:70-87 the keeper of the tests: both minima are 1e6. *)
Definition cfgT : config := {|
  c_denom := c_denom cfg0; c_authority := c_authority cfg0; c_min_lock := 1000000; c_min_unlock := 1000000;
  c_dec := c_dec cfg0; c_enc := c_enc cfg0; c_raw := c_raw cfg0; c_acct := c_acct cfg0;
  c_blocked := c_blocked cfg0; c_chain := c_chain cfg0; c_vaa := c_vaa cfg0; c_hex := c_hex cfg0;
  c_keccak := c_keccak cfg0 |}.

(** A step of a test: the block time, a call whose error is ignored, a call that
    must succeed, a call that must fail, an assertion. The tests call the keeper
    directly, so the writes of a failing call stay. On a whole chain a message is
    executed as a transaction that must succeed, or must fail and is undone. *)
Inductive tstep :=
| At (time : Z)
| Any (m : M unit)
| Good (m : M unit)
| Bad (m : M unit)
| Tx (o : op)
| TxFails (o : op)
| Chk (p : state -> bool).
Fixpoint replay (l : list tstep) (s : state) : bool :=
  match l with
  | [] => true
  | At t :: l => replay l (s <| st_world; x_now := t |>)
  | Any m :: l => match m s with Ok s' _ | Err s' _ => replay l s' | Panic => false end
  | Good m :: l => match m s with Ok s' _ => replay l s' | _ => false end
  | Bad m :: l => match m s with Err s' _ => replay l s' | _ => false end
  | Tx o :: l => match exec cfgT o s with Ok s' _ => replay l s' | _ => false end
  | TxFails o :: l => match exec cfgT o s with Ok _ _ => false | _ => replay l s end
  | Chk p :: l => p s && replay l s
  end.
(** The answer of a query. *)
Definition says {A} (q : M A) (s : state) (p : A -> bool) : bool :=
  match q s with Ok _ a => p a | _ => false end.
(** The positions of a user by vault and time (vault, principal, index, amount,
    time), the reward records by index (index, total, rewards). *)
Definition held (s : state) (a : addr) : list (Z * Z * Z * Z * Z) :=
  let f v p := (v, pos_principal p, pos_index p, pos_amount p, pos_time p) in
  (f STAKED <$> positions_of s a STAKED) ++ (f FLEXIBLE <$> positions_of s a FLEXIBLE).
Definition records (s : state) : list (Z * Z * Z) :=
  (fun r => (rw_index r, rw_total r, rw_rewards r)) <$> (rewards_above s (-1)).*2.
(** utils/mocks/dollar.go:97 the default genesis. (The code panics there as it
    stands, C43; the tests predate the second season and the collector is not used.) *)
Definition start : state :=
  match init_genesis cfgT (default_with (c_enc cfgT carol)) (blank (mk_bank ∅ 0 0) (st_world init0)) with
  | Ok s _ => s | _ => init0 end.

(** * The vault tests *)

(** keeper/msg_server_vaults_test.go:42 TestPausing *)
Definition test_pausing : list tstep :=
  [ At 1577750400;
    Any (update_index cfgT allok 1000000000000);
    Chk (fun s => says q_vaults_paused s (fun p => p =? PAUSE_NONE));
    Any (mint cfgT allok bob 100000000 0);
    Good (lock cfgT (enc0 bob) STAKED (Some 50000000));
    Bad (vaults_set_paused cfgT (enc0 bob) PAUSE_ALL);
    Good (vaults_set_paused cfgT authority PAUSE_ALL);
    Chk (fun s => says q_vaults_paused s (fun p => p =? PAUSE_ALL));
    At 1577754000;
    Bad (lock cfgT (enc0 bob) STAKED (Some 50000000));
    Bad (unlock cfgT (enc0 bob) STAKED (Some 50000000));
    At 1577757600;
    Good (vaults_set_paused cfgT authority PAUSE_UNLOCK);
    Chk (fun s => says q_vaults_paused s (fun p => p =? PAUSE_UNLOCK));
    Good (lock cfgT (enc0 bob) STAKED (Some 50000000));
    Bad (unlock cfgT (enc0 bob) STAKED (Some 100000000));
    At 1577761200;
    Good (vaults_set_paused cfgT authority PAUSE_LOCK);
    Chk (fun s => says q_vaults_paused s (fun p => p =? PAUSE_LOCK));
    Good (unlock cfgT (enc0 bob) STAKED (Some 50000000));
    Bad (lock cfgT (enc0 bob) STAKED (Some 50000000)) ].
Example test_pausing_ok : replay test_pausing start = true.
Proof. vm_compute. reflexivity. Qed.

(** keeper/msg_server_vaults_test.go:157 TestStakedVault *)
Definition test_staked_vault : list tstep :=
  [ At 1577750400;
    Any (update_index cfgT allok 1000000000000);
    Any (mint cfgT allok bob 100000000 0);
    Bad (lock cfgT (enc0 bob) STAKED (Some 500000));
    Good (lock cfgT (enc0 bob) STAKED (Some 50000000));
    Chk (fun s => bal s bob =? 50000000);
    Chk (fun s => says q_vaults_stats s (fun t => vs_staked_users t =? 1));
    Chk (fun s => says q_vaults_stats s (fun t => vs_staked_principal t =? 50000000));
    Any (update_index cfgT allok 1100000000000);
    Good (claim_yield cfgT (enc0 bob));
    Chk (fun s => bal s bob =? 55000000);
    Bad (unlock cfgT (enc0 bob) STAKED None);
    Bad (unlock cfgT (enc0 bob) STAKED (Some 500000));
    Good (unlock cfgT (enc0 bob) STAKED (Some 49100000));
    Bad (unlock cfgT (enc0 bob) STAKED (Some 1000000));
    Bad (unlock cfgT (enc0 bob) STAKED (Some 500000));
    Good (unlock cfgT (enc0 bob) STAKED (Some 900000));
    Chk (fun s => says q_vaults_stats s (fun t => vs_staked_users t =? 0));
    Chk (fun s => says q_vaults_stats s (fun t => vs_staked_principal t =? 0));
    Chk (fun s => bal s bob =? 105000000);
    Good (claim_yield cfgT (enc0 bob));
    Chk (fun s => bal s bob =? 105000000);
    Any (update_index cfgT allok 1210000000000);
    Good (claim_yield cfgT (enc0 bob));
    Chk (fun s => bal s bob =? 115500000) ].
Example test_staked_vault_ok : replay test_staked_vault start = true.
Proof. vm_compute. reflexivity. Qed.

(** keeper/msg_server_vaults_test.go:290 TestStakedVaultMultiPositions *)
Definition test_staked_vault_multi_positions : list tstep :=
  [ At 1577750400;
    Any (update_index cfgT allok 1000000000000);
    Any (mint cfgT allok bob 100000000 0);
    Good (lock cfgT (enc0 bob) STAKED (Some 50000000));
    Chk (fun s => bal s bob =? 50000000);
    Chk (fun s => says q_vaults_stats s (fun t => vs_staked_users t =? 1));
    Chk (fun s => says q_vaults_stats s (fun t => vs_staked_principal t =? 50000000));
    Bad (lock cfgT (enc0 bob) STAKED (Some 50000000));
    At 1577754000;
    Good (lock cfgT (enc0 bob) STAKED (Some 50000000));
    Chk (fun s => (length (held s bob) =? 2)%nat);
    Chk (fun s => bal s bob =? 0);
    Chk (fun s => says q_vaults_stats s (fun t => vs_staked_users t =? 1));
    Chk (fun s => says q_vaults_stats s (fun t => vs_staked_principal t =? 100000000));
    Any (update_index cfgT allok 1100000000000);
    Good (unlock cfgT (enc0 bob) STAKED (Some 100000000));
    Chk (fun s => bal s bob =? 100000000);
    Chk (fun s => says q_vaults_stats s (fun t => vs_staked_users t =? 0));
    Chk (fun s => says q_vaults_stats s (fun t => vs_staked_principal t =? 0));
    Good (claim_yield cfgT (enc0 bob));
    Chk (fun s => bal s bob =? 100000000);
    Chk (fun s => says q_pending_rewards s (fun z => z =? 10000000));
    Chk (fun s => says (q_pending_rewards_by_provider cfgT (enc0 bob)) s (fun r => r.1 =? 0)) ].
Example test_staked_vault_multi_positions_ok : replay test_staked_vault_multi_positions start = true.
Proof. vm_compute. reflexivity. Qed.

(** keeper/msg_server_vaults_test.go:385 TestStakedPartialRemoval *)
Definition test_staked_partial_removal : list tstep :=
  [ At 1577750400;
    Any (update_index cfgT allok 1100000000000);
    Any (mint cfgT allok bob 50000000 0);
    Good (lock cfgT (enc0 bob) STAKED (Some 50000000));
    Chk (fun s => says q_vaults_stats s (fun t => vs_staked_users t =? 1));
    Chk (fun s => says q_vaults_stats s (fun t => vs_staked_principal t =? 45454545));
    At 1577836800;
    Any (update_index cfgT allok 1210000000000);
    Any (mint cfgT allok bob 50000000 0);
    Good (lock cfgT (enc0 bob) STAKED (Some 50000000));
    Chk (fun s => (length (held s bob) =? 2)%nat);
    Chk (fun s => bool_decide (held s bob = [(STAKED, 45454545, 1100000000000, 50000000, 1577750400); (STAKED, 41322314, 1210000000000, 50000000, 1577836800)]));
    Chk (fun s => says q_vaults_stats s (fun t => vs_staked_users t =? 1));
    Chk (fun s => says q_vaults_stats s (fun t => vs_staked_principal t =? 86776859));
    Good (unlock cfgT (enc0 bob) STAKED (Some 10000000));
    Chk (fun s => bal s bob =? 10000000);
    Chk (fun s => (length (held s bob) =? 2)%nat);
    Chk (fun s => bool_decide (held s bob = [(STAKED, 36363636, 1100000000000, 40000000, 1577750400); (STAKED, 41322314, 1210000000000, 50000000, 1577836800)]));
    Chk (fun s => says q_vaults_stats s (fun t => vs_staked_users t =? 1));
    Chk (fun s => says q_vaults_stats s (fun t => vs_staked_principal t =? 77685950));
    Good (unlock cfgT (enc0 bob) STAKED (Some 40000000));
    Chk (fun s => bal s bob =? 50000000);
    Chk (fun s => (length (held s bob) =? 1)%nat);
    Chk (fun s => bool_decide (held s bob = [(STAKED, 41322314, 1210000000000, 50000000, 1577836800)]));
    Chk (fun s => says q_vaults_stats s (fun t => vs_staked_users t =? 1));
    Chk (fun s => says q_vaults_stats s (fun t => vs_staked_principal t =? 41322314));
    Good (unlock cfgT (enc0 bob) STAKED (Some 50000000));
    Chk (fun s => bal s bob =? 100000000);
    Chk (fun s => (length (held s bob) =? 0)%nat);
    Chk (fun s => says q_vaults_stats s (fun t => vs_staked_users t =? 0));
    Chk (fun s => says q_vaults_stats s (fun t => vs_staked_principal t =? 0));
    Good (claim_yield cfgT (enc0 bob));
    Chk (fun s => bal s bob =? 100000000);
    Chk (fun s => says q_pending_rewards s (fun z => z =? 5000000));
    Chk (fun s => says (q_pending_rewards_by_provider cfgT (enc0 bob)) s (fun r => r.1 =? 0)) ].
Example test_staked_partial_removal_ok : replay test_staked_partial_removal start = true.
Proof. vm_compute. reflexivity. Qed.

(** keeper/msg_server_vaults_test.go:552 TestStakedVaultRewardsMigration *)
Definition test_staked_vault_rewards_migration : list tstep :=
  [ At 1577750400;
    Any (update_index cfgT allok 1000000000000);
    Any (mint cfgT allok bob 100000000 0);
    Good (lock cfgT (enc0 bob) STAKED (Some 50000000));
    Chk (fun s => bal s bob =? 50000000);
    Any (update_index cfgT allok 1100000000000);
    Chk (fun s => bal s FlexibleA =? 5000000);
    Good (claim_yield cfgT (enc0 bob));
    Chk (fun s => bal s bob =? 55000000);
    Chk (fun s => bal s FlexibleA =? 5000000);
    Good (unlock cfgT (enc0 bob) STAKED (Some 50000000));
    Chk (fun s => bal s bob =? 105000000);
    Any (update_index cfgT allok 1210000000000);
    Chk (fun s => bal s FlexibleA =? 5499999);
    Good (claim_yield cfgT (enc0 bob));
    Chk (fun s => bal s bob =? 115500000);
    Chk (fun s => bal s StakedA =? 0);
    Chk (fun s => bal s FlexibleA =? 5499999);
    Good (lock cfgT (enc0 bob) FLEXIBLE (Some 1000000));
    Chk (fun s => v_total_flex (st_vaults s) =? 826446) ].
Example test_staked_vault_rewards_migration_ok : replay test_staked_vault_rewards_migration start = true.
Proof. vm_compute. reflexivity. Qed.

(** keeper/msg_server_vaults_test.go:634 TestFlexibleVaultMultiUser *)
Definition test_flexible_vault_multi_user : list tstep :=
  [ At 1577750400;
    Any (update_index cfgT allok 1000000000000);
    Any (mint cfgT allok bob 1050000000 0);
    Any (mint cfgT allok alice 50000000 0);
    Good (lock cfgT (enc0 bob) STAKED (Some 1000000000));
    Good (lock cfgT (enc0 bob) FLEXIBLE (Some 50000000));
    Good (lock cfgT (enc0 alice) FLEXIBLE (Some 50000000));
    Chk (fun s => bal s bob =? 0);
    Chk (fun s => bal s alice =? 0);
    At 1577836800;
    Any (update_index cfgT allok 1100000000000);
    Chk (fun s => bal s StakedA =? 1000000000);
    Chk (fun s => bal s FlexibleA =? 100000000);
    Chk (fun s => prin s StakedA =? 909090910);
    Chk (fun s => prin s FlexibleA =? 90909090);
    Good (unlock cfgT (enc0 bob) FLEXIBLE (Some 50000000));
    Good (unlock cfgT (enc0 alice) FLEXIBLE (Some 50000000));
    Chk (fun s => bal s bob =? 55000000);
    Chk (fun s => bal s bob =? 55000000);
    Good (claim_yield cfgT (enc0 bob));
    Good (claim_yield cfgT (enc0 alice));
    Chk (fun s => bal s bob =? 55000000);
    Chk (fun s => bal s bob =? 55000000) ].
Example test_flexible_vault_multi_user_ok : replay test_flexible_vault_multi_user start = true.
Proof. vm_compute. reflexivity. Qed.

(** keeper/msg_server_vaults_test.go:737 TestFlexibleVaultMultiUserEarlyExit *)
Definition test_flexible_vault_multi_user_early_exit : list tstep :=
  [ At 1577750400;
    Any (update_index cfgT allok 1000000000000);
    Any (mint cfgT allok bob 1050000000 0);
    Any (mint cfgT allok alice 50000000 0);
    Good (lock cfgT (enc0 bob) STAKED (Some 1000000000));
    Good (lock cfgT (enc0 bob) FLEXIBLE (Some 50000000));
    Good (lock cfgT (enc0 alice) FLEXIBLE (Some 50000000));
    Chk (fun s => bal s bob =? 0);
    Chk (fun s => bal s alice =? 0);
    Good (unlock cfgT (enc0 bob) FLEXIBLE (Some 50000000));
    Good (unlock cfgT (enc0 alice) FLEXIBLE (Some 50000000));
    Chk (fun s => bal s bob =? 50000000);
    Chk (fun s => bal s alice =? 50000000);
    Any (update_index cfgT allok 1100000000000);
    At 1577836800;
    Good (claim_yield cfgT (enc0 bob));
    Good (claim_yield cfgT (enc0 alice));
    Chk (fun s => bal s bob =? 55000000);
    Chk (fun s => bal s alice =? 55000000) ].
Example test_flexible_vault_multi_user_early_exit_ok : replay test_flexible_vault_multi_user_early_exit start = true.
Proof. vm_compute. reflexivity. Qed.

(** keeper/msg_server_vaults_test.go:828 TestFlexibleVaultMultiUserEarlyExitCase2 *)
Definition test_flexible_vault_multi_user_early_exit_case2 : list tstep :=
  [ At 1577750400;
    Any (update_index cfgT allok 1100000000000);
    Any (mint cfgT allok bob 1000000000 0);
    Good (lock cfgT (enc0 bob) FLEXIBLE (Some 1000000000));
    Good (unlock cfgT (enc0 bob) FLEXIBLE (Some 1000000000));
    Chk (fun s => bal s bob =? 1000000000) ].
Example test_flexible_vault_multi_user_early_exit_case2_ok : replay test_flexible_vault_multi_user_early_exit_case2 start = true.
Proof. vm_compute. reflexivity. Qed.

(** keeper/msg_server_vaults_test.go:869 TestFlexibleVaultMultiUserEarlyExitCase3 *)
Definition test_flexible_vault_multi_user_early_exit_case3 : list tstep :=
  [ At 1577750400;
    Any (update_index cfgT allok 1100000000000);
    Any (mint cfgT allok bob 1000000000 0);
    Good (lock cfgT (enc0 bob) FLEXIBLE (Some 1000000000));
    Good (unlock cfgT (enc0 bob) FLEXIBLE (Some 1000000000));
    Chk (fun s => bal s bob =? 1000000000);
    Any (update_index cfgT allok 1210000000000);
    At 1577836800;
    Good (claim_yield cfgT (enc0 bob));
    Chk (fun s => bal s bob =? 1099999999) ].
Example test_flexible_vault_multi_user_early_exit_case3_ok : replay test_flexible_vault_multi_user_early_exit_case3 start = true.
Proof. vm_compute. reflexivity. Qed.

(** keeper/msg_server_vaults_test.go:922 TestFlexibleVaultBaseLockUnlock *)
Definition test_flexible_vault_base_lock_unlock : list tstep :=
  [ At 1577750400;
    Any (update_index cfgT allok 1000000000000);
    Any (mint cfgT allok bob 1000000000 0);
    Good (lock cfgT (enc0 bob) FLEXIBLE (Some 1000000000));
    Good (unlock cfgT (enc0 bob) FLEXIBLE (Some 1000000000));
    Chk (fun s => bal s bob =? 1000000000);
    Chk (fun s => bal s FlexibleA =? 0) ].
Example test_flexible_vault_base_lock_unlock_ok : replay test_flexible_vault_base_lock_unlock start = true.
Proof. vm_compute. reflexivity. Qed.

(** keeper/msg_server_vaults_test.go:966 TestFlexibleVaultSimpleNoRewards *)
Definition test_flexible_vault_simple_no_rewards : list tstep :=
  [ At 1577750400;
    Any (update_index cfgT allok 1000000000000);
    Any (mint cfgT allok bob 1000000000 0);
    Good (lock cfgT (enc0 bob) FLEXIBLE (Some 1000000000));
    Any (update_index cfgT allok 1100000000000);
    At 1577836800;
    Good (unlock cfgT (enc0 bob) FLEXIBLE (Some 1000000000));
    Chk (fun s => bal s bob =? 1100000000);
    Chk (fun s => bal s FlexibleA =? 0) ].
Example test_flexible_vault_simple_no_rewards_ok : replay test_flexible_vault_simple_no_rewards start = true.
Proof. vm_compute. reflexivity. Qed.

(** keeper/msg_server_vaults_test.go:1012 TestFlexibleVaultMultiUserFlexibleNoRewards *)
Definition test_flexible_vault_multi_user_flexible_no_rewards : list tstep :=
  [ At 1577750400;
    Any (update_index cfgT allok 1000000000000);
    Any (mint cfgT allok bob 1000000000 0);
    Good (lock cfgT (enc0 bob) FLEXIBLE (Some 1000000000));
    Chk (fun s => says q_pending_rewards s (fun z => z =? 0));
    Any (update_index cfgT allok 1100000000000);
    At 1577836800;
    Any (mint cfgT allok alice 1000000000 0);
    Good (lock cfgT (enc0 alice) FLEXIBLE (Some 1000000000));
    Chk (fun s => bal s alice =? 0);
    Chk (fun s => says q_pending_rewards s (fun z => z =? 0));
    Good (unlock cfgT (enc0 bob) FLEXIBLE (Some 1000000000));
    Chk (fun s => bal s bob =? 1100000000);
    Chk (fun s => says q_pending_rewards s (fun z => z =? 0));
    Good (unlock cfgT (enc0 alice) FLEXIBLE (Some 1000000000));
    Chk (fun s => says q_pending_rewards s (fun z => z =? 0));
    Chk (fun s => bal s bob =? 1100000000);
    Chk (fun s => bal s alice =? 1000000000);
    Chk (fun s => bal s FlexibleA =? 0) ].
Example test_flexible_vault_multi_user_flexible_no_rewards_ok : replay test_flexible_vault_multi_user_flexible_no_rewards start = true.
Proof. vm_compute. reflexivity. Qed.

(** keeper/msg_server_vaults_test.go:1097 TestFlexibleVaultMultiUserMultiEntry *)
Definition test_flexible_vault_multi_user_multi_entry : list tstep :=
  [ At 1577750400;
    Any (update_index cfgT allok 1010000000000);
    Any (mint cfgT allok bob 2000000000 0);
    Good (lock cfgT (enc0 bob) STAKED (Some 1000000000));
    Good (lock cfgT (enc0 bob) FLEXIBLE (Some 1000000000));
    Any (update_index cfgT allok 1100000000000);
    At 1577836800;
    Any (update_index cfgT allok 1210000000000);
    At 1577923200;
    Any (update_index cfgT allok 1330000000000);
    At 1578009600;
    Any (mint cfgT allok alice 1000000000 0);
    Good (lock cfgT (enc0 alice) FLEXIBLE (Some 1000000000));
    Any (update_index cfgT allok 1460000000000);
    At 1578096000;
    Chk (fun s => bool_decide (records s = [(1010000000000, 0, 0); (1100000000000, 990099009, 89108911); (1210000000000, 990099009, 108910891); (1330000000000, 990099009, 118811881); (1460000000000, 1741978708, 128712871)]));
    Chk (fun s => (length (held s bob) =? 2)%nat);
    Chk (fun s => (length (held s alice) =? 1)%nat);
    Chk (fun s => bool_decide (held s bob !! 1%nat = Some (FLEXIBLE, (1000000000 * 10 ^ 12 / 1010000000000), 1010000000000, 1000000000, 1577750400)));
    Chk (fun s => bool_decide (held s alice !! 0%nat = Some (FLEXIBLE, (1000000000 * 10 ^ 12 / 1330000000000), 1330000000000, 1000000000, 1578009600)));
    Good (unlock cfgT (enc0 bob) FLEXIBLE (Some 1000000000));
    Chk (fun s => bool_decide (records s = [(1010000000000, 0, 0); (1100000000000, 0, 1); (1210000000000, 0, 1); (1330000000000, 0, 0); (1460000000000, 751879699, 128712871)]));
    Chk (fun s => (length (held s bob) =? 1)%nat);
    Chk (fun s => (length (held s alice) =? 1)%nat);
    Good (unlock cfgT (enc0 alice) FLEXIBLE (Some 1000000000));
    Chk (fun s => bool_decide (records s = [(1010000000000, 0, 0); (1100000000000, 0, 1); (1210000000000, 0, 1); (1330000000000, 0, 0); (1460000000000, 0, 128712871)]));
    Chk (fun s => (length (held s alice) =? 0)%nat);
    Chk (fun s => bal s bob =? 1762376235);
    Chk (fun s => bal s alice =? 1097744362) ].
Example test_flexible_vault_multi_user_multi_entry_ok : replay test_flexible_vault_multi_user_multi_entry start = true.
Proof. vm_compute. reflexivity. Qed.

(** keeper/msg_server_vaults_test.go:1314 TestFlexibleVaultRewardsSimple *)
Definition test_flexible_vault_rewards_simple : list tstep :=
  [ At 1577750400;
    Any (update_index cfgT allok 1010000000000);
    Any (mint cfgT allok bob 1000000000 0);
    Good (lock cfgT (enc0 bob) STAKED (Some 1000000000));
    Chk (fun s => says q_vaults_stats s (fun t => vs_staked_users t =? 1));
    Chk (fun s => says q_vaults_stats s (fun t => vs_staked_principal t =? 990099009));
    Chk (fun s => says q_pending_rewards s (fun z => z =? 0));
    Chk (fun s => says (q_pending_rewards_by_provider cfgT (enc0 bob)) s (fun r => r.1 =? 0));
    At 1577836800;
    Any (update_index cfgT allok 1100000000000);
    Chk (fun s => says q_pending_rewards s (fun z => z =? 89108911));
    Chk (fun s => says (q_pending_rewards_by_provider cfgT (enc0 bob)) s (fun r => r.1 =? 0));
    Any (mint cfgT allok bob 1000000000 0);
    Good (lock cfgT (enc0 bob) FLEXIBLE (Some 1000000000));
    Chk (fun s => (length (held s bob) =? 2)%nat);
    Chk (fun s => bool_decide (held s bob !! 1%nat = Some (FLEXIBLE, (1000000000 * 10 ^ 12 / 1100000000000), 1100000000000, 1000000000, 1577836800)));
    Chk (fun s => says q_vaults_stats s (fun t => vs_staked_users t =? 1));
    Chk (fun s => says q_vaults_stats s (fun t => vs_staked_principal t =? 990099009));
    Chk (fun s => says q_vaults_stats s (fun t => vs_flex_users t =? 1));
    Chk (fun s => says q_vaults_stats s (fun t => vs_flex_principal t =? 909090909));
    Chk (fun s => says q_pending_rewards s (fun z => z =? 89108911));
    Chk (fun s => says (q_pending_rewards_by_provider cfgT (enc0 bob)) s (fun r => r.1 =? 0));
    Any (update_index cfgT allok 1210000000000);
    At 1577923200;
    Chk (fun s => says q_pending_rewards s (fun z => z =? 198019802));
    Chk (fun s => says (q_pending_rewards_by_provider cfgT (enc0 bob)) s (fun r => r.1 =? 0));
    Any (mint cfgT allok alice 9000000000 0);
    Good (lock cfgT (enc0 alice) FLEXIBLE (Some 9000000000));
    Chk (fun s => (length (held s alice) =? 1)%nat);
    Chk (fun s => bool_decide (held s alice !! 0%nat = Some (FLEXIBLE, (9000000000 * 10 ^ 12 / 1210000000000), 1210000000000, 9000000000, 1577923200)));
    Chk (fun s => says q_vaults_stats s (fun t => vs_staked_users t =? 1));
    Chk (fun s => says q_vaults_stats s (fun t => vs_staked_principal t =? 990099009));
    Chk (fun s => says q_vaults_stats s (fun t => vs_flex_users t =? 2));
    Chk (fun s => says q_vaults_stats s (fun t => vs_flex_principal t =? 8347107437));
    Chk (fun s => bool_decide (records s = [(1010000000000, 0, 0); (1100000000000, 0, 89108911); (1210000000000, (1000000000 * 10 ^ 12 / 1100000000000), 108910891)]));
    Any (update_index cfgT allok 1330000000000);
    At 1578009600;
    Chk (fun s => says q_pending_rewards s (fun z => z =? 316831683));
    Chk (fun s => says (q_pending_rewards_by_provider cfgT (enc0 alice)) s (fun r => r.1 =? 0));
    Chk (fun s => says (q_pending_rewards_by_provider cfgT (enc0 bob)) s (fun r => r.1 =? 108910890));
    Good (unlock cfgT (enc0 bob) FLEXIBLE (Some 1000000000));
    Chk (fun s => says q_pending_rewards s (fun z => z =? 207920793));
    Chk (fun s => says (q_pending_rewards_by_provider cfgT (enc0 alice)) s (fun r => r.1 =? 0));
    Chk (fun s => says (q_pending_rewards_by_provider cfgT (enc0 bob)) s (fun r => r.1 =? 0));
    Chk (fun s => (length (held s bob) =? 1)%nat);
    Chk (fun s => bool_decide (records s = [(1010000000000, 0, 0); (1100000000000, 0, 89108911); (1210000000000, 0, 1); (1330000000000, 7438016528, 118811881)]));
    Chk (fun s => says q_vaults_stats s (fun t => vs_staked_users t =? 1));
    Chk (fun s => says q_vaults_stats s (fun t => vs_staked_principal t =? 990099009));
    Chk (fun s => says q_vaults_stats s (fun t => vs_flex_users t =? 1));
    Chk (fun s => says q_vaults_stats s (fun t => vs_flex_principal t =? 7438016528));
    Chk (fun s => says q_vaults_stats s (fun t => vs_flex_distributed t =? 108910890));
    Good (unlock cfgT (enc0 alice) FLEXIBLE (Some 9000000000));
    Chk (fun s => says q_pending_rewards s (fun z => z =? 207920793));
    Chk (fun s => says (q_pending_rewards_by_provider cfgT (enc0 alice)) s (fun r => r.1 =? 0));
    Chk (fun s => says (q_pending_rewards_by_provider cfgT (enc0 bob)) s (fun r => r.1 =? 0));
    Chk (fun s => (length (held s alice) =? 0)%nat);
    Chk (fun s => bool_decide (records s = [(1010000000000, 0, 0); (1100000000000, 0, 89108911); (1210000000000, 0, 1); (1330000000000, 0, 118811881)]));
    Chk (fun s => says q_vaults_stats s (fun t => vs_staked_users t =? 1));
    Chk (fun s => says q_vaults_stats s (fun t => vs_staked_principal t =? 990099009));
    Chk (fun s => says q_vaults_stats s (fun t => vs_flex_users t =? 0));
    Chk (fun s => says q_vaults_stats s (fun t => vs_flex_principal t =? 0));
    Chk (fun s => says q_vaults_stats s (fun t => vs_flex_distributed t =? 108910890));
    Chk (fun s => bal s bob =? 1318001800);
    Chk (fun s => bal s alice =? 9892561983) ].
Example test_flexible_vault_rewards_simple_ok : replay test_flexible_vault_rewards_simple start = true.
Proof. vm_compute. reflexivity. Qed.

(** keeper/msg_server_vaults_test.go:1608 TestFlexibleVaultRewardsHacky *)
Definition test_flexible_vault_rewards_hacky : list tstep :=
  [ At 1577750400;
    Any (update_index cfgT allok 1010000000000);
    Any (mint cfgT allok bob 2000000000 0);
    Good (lock cfgT (enc0 bob) STAKED (Some 1000000000));
    Good (lock cfgT (enc0 bob) FLEXIBLE (Some 1000000000));
    At 1577836800;
    Any (update_index cfgT allok 1100000000000);
    Chk (fun s => says q_pending_rewards s (fun z => z =? 89108911));
    Chk (fun s => says (q_pending_rewards_by_provider cfgT (enc0 alice)) s (fun r => r.1 =? 0));
    Chk (fun s => says (q_pending_rewards_by_provider cfgT (enc0 bob)) s (fun r => r.1 =? 0));
    Any (mint cfgT allok alice 9000000000 0);
    Good (lock cfgT (enc0 alice) FLEXIBLE (Some 9000000000));
    Any (update_index cfgT allok 1210000000000);
    At 1577923200;
    Chk (fun s => says q_pending_rewards s (fun z => z =? 198019802));
    Chk (fun s => says (q_pending_rewards_by_provider cfgT (enc0 alice)) s (fun r => r.1 =? 0));
    Chk (fun s => says (q_pending_rewards_by_provider cfgT (enc0 bob)) s (fun r => r.1 =? 89108910));
    Chk (fun s => bool_decide (records s = [(1010000000000, 0, 0); (1100000000000, 990099009, 89108911); (1210000000000, 9171917190, 108910891)]));
    Good (unlock cfgT (enc0 bob) FLEXIBLE (Some 1000000000));
    Good (unlock cfgT (enc0 alice) FLEXIBLE (Some 9000000000));
    Chk (fun s => says q_pending_rewards s (fun z => z =? 108910892));
    Chk (fun s => says (q_pending_rewards_by_provider cfgT (enc0 alice)) s (fun r => r.1 =? 0));
    Chk (fun s => says (q_pending_rewards_by_provider cfgT (enc0 bob)) s (fun r => r.1 =? 0));
    Chk (fun s => bool_decide (records s = [(1010000000000, 0, 0); (1100000000000, 0, 1); (1210000000000, 0, 108910891)]));
    Chk (fun s => bal s bob =? 1287128712);
    Chk (fun s => bal s alice =? 9900000000) ].
Example test_flexible_vault_rewards_hacky_ok : replay test_flexible_vault_rewards_hacky start = true.
Proof. vm_compute. reflexivity. Qed.

(** keeper/msg_server_vaults_test.go:1766 TestFlexibleVaultRewardsEarlyExit *)
Definition test_flexible_vault_rewards_early_exit : list tstep :=
  [ At 1577750400;
    Any (update_index cfgT allok 1010000000000);
    Any (mint cfgT allok bob 2000000000 0);
    Good (lock cfgT (enc0 bob) STAKED (Some 1000000000));
    Chk (fun s => says q_pending_rewards s (fun z => z =? 0));
    Chk (fun s => says (q_pending_rewards_by_provider cfgT (enc0 bob)) s (fun r => r.1 =? 0));
    At 1577836800;
    Any (update_index cfgT allok 1100000000000);
    Chk (fun s => says q_pending_rewards s (fun z => z =? 89108911));
    Chk (fun s => says (q_pending_rewards_by_provider cfgT (enc0 bob)) s (fun r => r.1 =? 0));
    At 1577923200;
    Any (update_index cfgT allok 1210000000000);
    Good (lock cfgT (enc0 bob) FLEXIBLE (Some 1000000000));
    Chk (fun s => says q_pending_rewards s (fun z => z =? 198019802));
    Chk (fun s => says (q_pending_rewards_by_provider cfgT (enc0 bob)) s (fun r => r.1 =? 0));
    Good (unlock cfgT (enc0 bob) FLEXIBLE (Some 1000000000));
    Chk (fun s => says q_pending_rewards s (fun z => z =? 198019802));
    Chk (fun s => says (q_pending_rewards_by_provider cfgT (enc0 bob)) s (fun r => r.1 =? 0));
    At 1578009600;
    Any (update_index cfgT allok 1330000000000);
    Chk (fun s => says q_pending_rewards s (fun z => z =? 316831683));
    Chk (fun s => says (q_pending_rewards_by_provider cfgT (enc0 bob)) s (fun r => r.1 =? 0));
    Chk (fun s => bal s bob =? 1000000000);
    Chk (fun s => bool_decide (records s = [(1010000000000, 0, 0); (1100000000000, 0, 89108911); (1210000000000, 0, 108910891); (1330000000000, 0, 118811881)])) ].
Example test_flexible_vault_rewards_early_exit_ok : replay test_flexible_vault_rewards_early_exit start = true.
Proof. vm_compute. reflexivity. Qed.

(** * The codec tests *)

Definition nibble (a : Ascii.ascii) : Z :=
  let n := Z.of_N (Ascii.N_of_ascii a) in if n <? 58 then n - 48 else n - 87.
Fixpoint unhex (s : string) : bytes :=
  match s with
  | String a (String b r) => byte_of_Z (16 * nibble a + nibble b) :: unhex r
  | _ => []
  end.
(** Is the slice these bytes? *)
Definition is (s : slice) (h : string) : bool := bool_decide (sl_bytes s = unhex h).
Definition zeros32 : string := "0000000000000000000000000000000000000000000000000000000000000000".

(** types/portal/ntt/ntt_test.go:33 TestNativeTokenTransferUtilities *)
Definition ntt_raw : string :=
  "994e54540600000000000f42400000000000000000000000000000000000000000000000000000000000000000000000000000000000000000153b01572d58e7d24a4611b2bb31d9e8de9535a70fa900080000000000000000".
Example test_native_token_transfer_ok :
  match parse_ntt (sl_of (unhex ntt_raw)) with
  | POk n => (np_amount n =? 1000000) && is (np_source_token n) zeros32
      && is (np_to n) "000000000000000000000000153b01572d58e7d24a4611b2bb31d9e8de9535a7"
      && (np_to_chain n =? 4009) && (be_decode (sl_bytes (np_additional n)) =? 0)
      && bool_decide (encode_ntt (mk_ntt (np_amount n) (sl_bytes (np_source_token n)) (sl_bytes (np_to n))
           (np_to_chain n) (sl_bytes (np_additional n))) = unhex ntt_raw) = true
  | _ => False
  end.
Proof. vm_compute. reflexivity. Qed.

(** types/portal/ntt/manager_test.go:34 TestManagerMessageUtilities *)
Definition manager_raw : string :=
  "000000000000000000000000000000000000000000000000000000000000000000000000000000000000000090f8bf6a479f320ead074411a4b0e7944ea8c9c10059994e54540600000000000f42400000000000000000000000000000000000000000000000000000000000000000000000000000000000000000153b01572d58e7d24a4611b2bb31d9e8de9535a70fa900080000000000000000".
Example test_manager_message_ok :
  match parse_manager (sl_of (unhex manager_raw)) with
  | POk m => is (mp_id m) zeros32
      && is (mp_sender m) "00000000000000000000000090f8bf6a479f320ead074411a4b0e7944ea8c9c1"
      && is (mp_payload m) ntt_raw
      && bool_decide (encode_manager (mk_mm (sl_bytes (mp_id m)) (sl_bytes (mp_sender m)) (sl_bytes (mp_payload m)))
           = unhex manager_raw) = true
  | _ => False
  end.
Proof. vm_compute. reflexivity. Qed.

(** types/portal/ntt/transceiver_test.go:41 TestTransceiverMessageUtilities *)
Definition transceiver_raw : string :=
  "9945ff1000000000000000000000000000000000000000000000000000000000000000000000000000000000000000002e859506ba229c183f8985d54fe7210923fb9bca009b000000000000000000000000000000000000000000000000000000000000000000000000000000000000000090f8bf6a479f320ead074411a4b0e7944ea8c9c10059994e54540600000000000f42400000000000000000000000000000000000000000000000000000000000000000000000000000000000000000153b01572d58e7d24a4611b2bb31d9e8de9535a70fa9000800000000000000000000".
Example test_transceiver_message_ok :
  match parse_transceiver (sl_of (unhex transceiver_raw)) with
  | POk m => is (tp_source m) zeros32
      && is (tp_recipient m) "0000000000000000000000002e859506ba229c183f8985d54fe7210923fb9bca"
      && is (tp_manager m) manager_raw && is (tp_payload m) ""
      && bool_decide (encode_transceiver (mk_tm (sl_bytes (tp_source m)) (sl_bytes (tp_recipient m))
           (sl_bytes (tp_manager m)) (sl_bytes (tp_payload m))) = unhex transceiver_raw) = true
  | _ => False
  end.
Proof. vm_compute. reflexivity. Qed.

(** Keccak-256, to check the digest of a real message: lanes are numbers below
    2^64, the state is the list of its 25 lanes. *)
Definition mask : Z := 2 ^ 64 - 1.
Definition rotl (x n : Z) : Z := Z.lor (Z.land (Z.shiftl x n) mask) (Z.shiftr x (64 - n)).
Definition lane (a : list Z) (x y : Z) : Z := nth (Z.to_nat (x mod 5 + 5 * (y mod 5))) a 0.
Definition build (f : Z -> Z -> Z) : list Z :=
  map (fun i => f (Z.of_nat i mod 5) (Z.of_nat i / 5)) (seq 0 25).
Definition offsets : list Z :=
  [0; 1; 62; 28; 27; 36; 44; 6; 55; 20; 3; 10; 43; 25; 39; 41; 45; 15; 21; 8; 18; 2; 61; 56; 14].
Definition round_constants : list Z :=
  [0x1; 0x8082; 0x800000000000808a; 0x8000000080008000; 0x808b; 0x80000001; 0x8000000080008081; 0x8000000000008009;
   0x8a; 0x88; 0x80008009; 0x8000000a; 0x8000808b; 0x800000000000008b; 0x8000000000008089; 0x8000000000008003;
   0x8000000000008002; 0x8000000000000080; 0x800a; 0x800000008000000a; 0x8000000080008081; 0x8000000000008080;
   0x80000001; 0x8000000080008008].
Definition keccak_round (a : list Z) (rc : Z) : list Z :=
  let c := map (fun x => fold_left Z.lxor (map (fun y => lane a x (Z.of_nat y)) (seq 0 5)) 0) (map Z.of_nat (seq 0 5)) in
  let col x := nth (Z.to_nat (x mod 5)) c 0 in
  let t := build (fun x y => Z.lxor (lane a x y) (Z.lxor (col (x + 4)) (rotl (col (x + 1)) 1))) in
  let r := build (fun x y => rotl (lane t x y) (lane offsets x y)) in
  let b := build (fun x y => lane r (x + 3 * y) x) in
  let d := build (fun x y => Z.lxor (lane b x y)
                              (Z.land (Z.lxor (lane b (x + 1) y) mask) (lane b (x + 2) y))) in
  match d with l :: d => Z.lxor l rc :: d | [] => [] end.
Definition keccak_f (a : list Z) : list Z := fold_left keccak_round round_constants a.
Fixpoint chunks (k : nat) (n : nat) (bs : bytes) : list bytes :=
  match n with O => [] | S n => take k bs :: chunks k n (drop k bs) end.
Definition absorb (a : list Z) (block : bytes) : list Z :=
  keccak_f (zip_with Z.lxor a (map (fun w => be_decode (reverse w)) (chunks 8 17 block) ++ replicate 8 0)).
Definition pad_keccak (bs : bytes) : bytes :=
  let k := (135 - length bs mod 136)%nat in
  match k with
  | O => bs ++ [byte_of_Z 0x81]
  | S k => bs ++ [byte_of_Z 1] ++ replicate k (byte_of_Z 0) ++ [byte_of_Z 0x80]
  end.
Definition keccak256 (bs : bytes) : bytes :=
  let p := pad_keccak bs in
  let a := fold_left absorb (chunks 136 (length p / 136) p) (replicate 25 0) in
  concat (map (fun l => reverse (be_encode 8 l)) (take 4 a)).
(** The hash of the empty string. *)
Example keccak_empty_ok : bool_decide (keccak256 [] =
  unhex "c5d2460186f7233c927e7db2dcc703c0e500b653ca82273b7bfad8045d85a470") = true.
Proof. vm_compute. reflexivity. Qed.

(** types/portal/ntt/manager_test.go:49 TestManagerMessageDigest: a message on
    Sepolia, chain 10002 *)
Example test_manager_message_digest_ok : bool_decide (keccak256 (digest_preimage 10002 (mk_mm
    (unhex "0000000000000000000000000000000000000000000000000000000000000002")
    (unhex "00000000000000000000000012b1a4226ba7d9ad492779c924b0fc00bdcb6217")
    (unhex "994e54540600000000000f423f000000000000000000000000866a2bf4e572cbcf37d5071a7a58503bfb36be1b00000000000000000000000012b1a4226ba7d9ad492779c924b0fc00bdcb621727130028000000e8d58b8383000000000000000000000000866a2bf4e572cbcf37d5071a7a58503bfb36be1b")))
  = unhex "e98541a7019a1d0092a127981ad6c47c30c72c80965b11ec7072886649a9e791") = true.
Proof. vm_compute. reflexivity. Qed.

(** * The wrapper test *)

(** ics4_wrapper_test.go:92 TestSendPacket: only channel-0 has a recipient. *)
Definition one_channel : state :=
  init0 <| st_dollar; d_recipients := {[(IBC, "channel-0") := "test"]} |>.
Definition test_packet (denom chan : string) : packet :=
  mk_packet transfer_port chan (Some (mk_ft denom (Some 1000000) "test" "test")).
Example test_send_packet_ok :
  replay [ Good (ics4_send_packet cfgT true (test_packet "uusdn" "channel-0")) ] one_channel &&
  replay [ Bad (ics4_send_packet cfgT true (test_packet "uusdn" "channel-1")) ] one_channel &&
  replay [ Good (ics4_send_packet cfgT true (test_packet "uusdc" "channel-0")) ] one_channel = true.
Proof. vm_compute. reflexivity. Qed.

(** * The end-to-end tests *)

(** The chain of the suite: a peer, and the amounts sent to the other chain, which
    are those of the acknowledged packets. *)
Definition e2e : state := start <| st_portal; p_peers := {[2 := mk_peer eth_transceiver eth_manager]} |>.
Definition abroad (s : state) : Z :=
  fold_right Z.add 0 (map (fun p => match pk_data p with Some d => default 0 (ft_amount d) | None => 0 end)
    (x_acked (st_world s))).
Definition answers (q : M (gmap string string)) (k v : string) (s : state) : bool :=
  says q s (fun m => bool_decide (m !! k = Some v)).
Definition escrow0 : addr := AEscrow transfer_port "channel-0".

(** e2e/ibc_test.go:64-181 TestIBCYieldDistribution *)
Definition test_ibc_start : list tstep :=
  [ Tx (issue 1 alice 1000000000000 e12);
    Chk (fun s => bal s alice =? 1000000000000);
    Chk (fun s => says q_yield_recipients s (fun m => bool_decide (m = ∅)));
    Tx (OpChannelOpen "channel-0");
    TxFails (OpIbcSend XOk alice "channel-0" "user" 500000000000);
    Tx (OpSetYieldRecipient authority IBC "channel-0" "recipient");
    Chk (answers q_yield_recipients "IBC/channel-0" "recipient");
    Tx (OpIbcSend XOk alice "channel-0" "user" 500000000000);
    Tx (OpIbcAck 0 AckResult);
    Chk (fun s => bal s escrow0 =? 500000000000);
    Chk (fun s => abroad s =? 500000000000);
    Tx (reindex 2 1041500000000) ].
Definition test_ibc_yield_distribution : list tstep := test_ibc_start ++
  [ Tx (OpIbcAck 0 AckResult);
    Chk (fun s => bal s escrow0 =? 520750000000);
    Chk (fun s => abroad s =? 520750000000) ].
Example test_ibc_yield_distribution_ok : replay test_ibc_yield_distribution e2e = true.
Proof. vm_compute. reflexivity. Qed.

(** e2e/ibc_test.go:184-344 TestIBCYieldDistributionTimeout *)
Definition test_ibc_yield_distribution_timeout : list tstep := test_ibc_start ++
  [ Tx (OpTime 600);
    Tx (OpIbcTimeout 0);
    Chk (fun s => says q_retry_amounts s (fun m => bool_decide (m !! "IBC/channel-0" = Some 20750000000)));
    Chk (fun s => bal s escrow0 =? 520750000000);
    Chk (fun s => abroad s =? 500000000000);
    Tx (reindex 3 1083000000000);
    Tx (OpIbcAck 0 AckResult);
    Chk (fun s => says q_retry_amounts s (fun m => bool_decide (m = ∅)));
    Chk (fun s => bal s escrow0 =? 541500000000);
    Chk (fun s => abroad s =? 541500000000) ].
Example test_ibc_yield_distribution_timeout_ok : replay test_ibc_yield_distribution_timeout e2e = true.
Proof. vm_compute. reflexivity. Qed.

(** e2e/hyperlane_test.go:52-148 TestHyperlaneYieldDistribution: domain 1 *)
Definition warp_id : string := "00000000000000000000000000000001".
Definition warp_token : Z := be_decode (drop 24 (bytes_of_string warp_id)).
Definition warp_recipient : string := "0123456789abcdef0123456789abcdef".
Definition dispatched_last (s : state) : Z :=
  match last (x_dispatched (st_world s)) with Some m => hm_amount m | None => 0 end.
Definition test_hyperlane_yield_distribution : list tstep :=
  [ Tx (OpWarpToken warp_token); Tx (OpWarpRouters warp_token [1]);
    Tx (issue 1 alice 1000000000000 e12);
    Chk (fun s => bal s alice =? 1000000000000);
    Chk (fun s => says q_yield_recipients s (fun m => bool_decide (m = ∅)));
    Tx (OpSetYieldRecipient authority HYPERLANE warp_id warp_recipient);
    Chk (answers q_yield_recipients ("HYPERLANE/" +:+ warp_id) warp_recipient);
    Tx (OpWarpSend XOk alice warp_token 1 (replicate 12 x00 ++ raw0 alice) 500000000000);
    Chk (fun s => bal s WarpA =? 500000000000);
    Chk (fun s => dispatched_last s =? 500000000000);
    Tx (reindex 2 1041500000000);
    Chk (fun s => bal s WarpA =? 520750000000);
    Chk (fun s => dispatched_last s =? 20750000000) ].
Example test_hyperlane_yield_distribution_ok : replay test_hyperlane_yield_distribution e2e = true.
Proof. vm_compute. reflexivity. Qed.
