# Formal model of noble-assets/dollar

Prover: Coq 8.16.1 with coq-std++ (finite maps, lists) and coq-record-update.
Everything is under `rocq/theories`.

## What is modelled

The model is a deterministic state machine.

* `Base.v` – Go data: bytes, slices with capacity, 64-bit wrap-around,
  `cosmossdk.io/math` `Int` (256-bit, panics on overflow) and `LegacyDec`
  (18 decimals, banker's rounding), the error/panic monad.
* `State.v` – accounts, the module state (one field per collection of
  `keeper/keeper.go:56-91`), the bank, and the parts of the outside world that
  the module reads or writes (wormhole archive and outbox, IBC packets in
  flight, hyperlane tokens).
* `Codec.v` – `types/portal/ntt/*.go`, `types/portal/payload.go`,
  `types/portal/additional_payload.go`.
* `Dollar.v` – bank operations, `SendRestrictionFn`, `GetYield`, `ClaimYield`,
  `Mint`, `Burn`, `UpdateIndex` and everything it calls, statistics.
* `Vaults.v` – `keeper/msg_server_vaults.go`, `keeper/state_vaults.go`.
* `Portal.v` – `Deliver`, `HandlePayload`, `keeper/msg_server_portal.go`.
* `Ibc.v` – `ibc_middleware.go`, `isc4_wrapper.go`.
* `Genesis.v` – `genesis.go`, `migrations.go`, `types/v2/provider.go`.
* `Queries.v` – the query servers.
* `Store.v` – the raw key-value store under the collections: prefixes
  (`types/**/keys.go`), key encodings, the two indexes of the positions, the checks of
  the schema builder, prefix and start-exclusive iteration. The keeper model itself reads
  finite maps and sorted lists; C66 proves that these are what the raw store gives.
* `Events.v` – the typed events of this module and the two `transfer_sent` events of the
  portal: every handler that emits one, written again with its events as result (C67_same:
  without the events it is the handler of the model), and readers of a log of events.
* `System.v` – one operation per message / packet callback / environment event,
  transaction atomicity, histories.

### Errors and panics

A Go function is a function `state -> Ok state value | Err state error | Panic`.
`Err` carries the state at the point of failure because three callers swallow
errors and keep the partial writes (`Mint` ignores the error of `UpdateIndex`,
the two external-yield loops log transfer errors, `endVaultsSeasonOne` logs
unlock errors). A message that ends in `Err` or `Panic` is rolled back
(`System.step`), which is what baseapp does for a transaction.

### Simplifications

* Only the USDN denomination has balances. Transfers of other denominations do
  not reach the modelled code (`SendRestrictionFn` returns immediately).
* Collections items written unconditionally by `InitGenesis` and never removed
  (Index, Stats, ...) are plain fields, so the "not found" errors of those
  items do not occur. Map entries keep their absence.
* Logging, gas and telemetry are not modelled. Events are kept apart from the rest of the
  model, in `Events.v`; that emitting one never fails is assumed (the `Int64()` panic in the
  transfer event is part of the model). Events of a failed message are dropped with its writes.
* Vesting locks are not modelled (spendable = balance).
* Addresses: an account is `AUser bytes`, `AMod name` (module account of that
  name) or `AEscrow port channel`. That these never coincide is the collision
  resistance of the SHA-256 address derivation. The bech32 codec is a
  parameter; the facts used about it are the hypothesis `codec_ok`, stated in
  each theorem that needs it.
* Time is in seconds.
* `MsgSend` and `MsgMultiSend` of x/bank carry USDN only (other denominations do not
  reach the module's state).
* A message signed by an account that is not a user account (module, escrow)
  is refused (`System.signed`): such accounts have no key.
* Every hyperlane collateral token is treated as one whose collateral is USDN.
* Genesis integers given as strings are represented by their parsed values, a
  nil `math.Int` by 0. The genesis maps (`map[string]string`) are lists of
  entries in an arbitrary order, and the theorems hold for every order.
* Two fields are ghosts, read by no modelled function: `bk_sends` (number of bank
  transfers) and `hm_sender` (sender of a dispatched hyperlane message).
* Keccak-256 is a parameter of the model; nothing is assumed about it.

### Code outside the repository that had to be assumed

* x/bank of cosmos-sdk v0.50: `SendCoins` = subtract from the sender, then the
  send restriction, then add to the recipient (the order the comments of
  `keeper.go:230-245` rely on); zero coins are dropped by `NewCoins`;
  `NewCoin` panics on negative amounts; blocked addresses are refused by
  `SendCoinsFromModuleToAccount`.
* wormhole `ParseAndVerifyVAA`: a partial function from bytes to VAAs (the
  guardian signatures), refusing a VAA whose digest was already used.
* ibc-go transfer: escrow by `SendCoins`, then `SendPacket`; each packet is
  acknowledged or timed out at most once; refunds by `SendCoins`; an
  acknowledgement that is neither a result nor an error is refused, so what the
  middleware wrote for it is rolled back.
* cosmossdk.io/collections v0.4.0 (only `Store.v`): big-endian integers with the sign bit
  of signed ones flipped, a length byte in front of bytes that are not the last part of a
  key, the end of a prefix iteration is the successor of the prefixed key, the schema
  builder refuses a name twice and overlapping prefixes. Values are kept as they are, not
  serialised. The hypothesis `storable` says that the key parts of the state have their Go
  types and that accounts in keys have different addresses of at most 255 bytes; C66_typed
  proves the part about the types for every history of typed messages.
* hyperlane `RemoteTransferCollateral`: collect by `SendCoins`, add to the
  collateral, dispatch.
  For the last two the outcome (refused before / failed after moving the coins
  / success) is chosen by the environment, and theorems hold for every choice.

## Files

Model: `Base State Codec Dollar Vaults Portal Ibc Genesis Queries Store System Events`.
Specification vocabulary used by the property statements: `Spec.v`, which does
not mention the lemmas. A concrete chain with histories for the examples:
`Concrete.v`. Lemmas: `MapSum Wp SendP EffectsP OpsP VaultsP TraceP PosP InvP CoreP
UserP RunP ArithP CoreThmP AdminP CodecP PortalP WireP StakeP StatP WithdrawP RewardP
SeasonP ExtP GenesisP LiveP SolvencyP HoldersP FlexP PayoutP FlexLiveP ExactP CoverP QueryP
WorthP UpdateP FrameP EndP UpgradeP BoardP
StoreP TypedP EventsP OrderP UnlockOrderP SplitP`. Property theorems with their
assumption listings and examples: `Props*.v`. `Tests.v` is not a proof of anything general: see
"Checks of the model against the repository's tests".

The main proof device is `TraceP.op_trace`: every successful message is a list
of elementary effects (transfer, yield payment, staked-vault payment, relay to
the collector, accrual, issuance, redemption), each with its precondition.
Invariants are proved once per elementary effect and lifted to all histories.

## Trusted base

* Coq 8.16.1's kernel (and `vm_compute`, used for the concrete examples and
  the witnesses of the refutations).
* The model, as a reading of /repo, and the assumptions on outside code above.
* `Print Assumptions` follows every property theorem; each prints "Closed under
  the global context". No axiom, parameter, admitted proof or disabled check is
  used. The library files loaded through coq-std++ contain the module parameters
  of `Coq.ssr.ssrunder` (seven constants, standard library); no theorem
  depends on them.
* Hypotheses that appear in statements instead of being assumed globally:
  `chain_ok` (the bech32 codec round-trips, decodes only case variants of what it
  encodes and produces no slash; the module account is blocked; the minimum lock is positive;
  chain id, manager address and denom have their sizes),
  `fresh` (a chain started from a genesis without balances, positions,
  peers and packets), `reachable` (any history of messages from such a state).
  `chain0_ok` and `init0_fresh` show that they can be met.

## What is not modelled

* CLI, gRPC gateway, module wiring, simapp, protobuf encoding of messages and
  stored values, amino names, events of other modules (bank, IBC, hyperlane, wormhole), telemetry, gas.
* `keeper/msg_server_vaults.go:448-502` (`endVaultsSeasonOne`) is modelled
  (`Vaults.end_season_one`) but no code path calls it at this commit, so it is not one of
  the messages of `System.v` and the theorems about histories do not cover it; C64 is
  about the function itself.
* No message of the module sets the season flag or the collector
  (`keeper/keeper.go:85-86`); outside genesis only an upgrade handler of the chain can.
  `OpEndSeason` stands for such an upgrade: it may happen at any point of a history, sets
  the flag and names a collector other than the module's account and the yield account.
* The guardian set and signature checks of wormhole, IBC light clients, relayers
  and hyperlane security modules: their outcome is chosen by the environment.

## Findings

Facts about the code that the proofs brought up; the theorem named in brackets holds the
witness.

1. **Rounding makes the yield account insolvent by dust** (C11_solvent_refuted).
   Each transfer moves `ceil` principal; 20 payments of 1 at index 1.1 leave the
   recipient with a claim of 2 that nothing backs. The shortfall is bounded by three
   units of principal per transfer.
2. **Index updates can be blocked** (C44_blocked_refuted). (a) Redeeming 10 of 11
   USDN in payments of 1 at index 1.1 leaves total principal 0 and supply 1, so
   `NewCoin` panics on a negative amount. (b) Many small stakes let the staked vault's claim
   exceed the yield account, and the claim inside `UpdateIndex` fails. (c) A token
   VAA to the yield address credits it outside the accounting (only the `dollar`
   account is blocked in simapp), after which supply exceeds the value of the total principal. (d) A
   second enrolled router or (e) an undecodable recipient for a hyperlane yield
   route makes `claimExternalYieldHyperlane` return an error.
3. **`Mint` swallows the error of `UpdateIndex` but keeps its partial writes**
   (C39_ledger_refuted): the index may rise while the vault or hyperlane part is skipped,
   and a hyperlane retry amount already removed is lost.
4. **Holders statistic drifts** (C12_holders_refuted): yield paid to an empty account
   is not counted. The flexible vault account always starts this way. A `MsgMultiSend`
   that spends the sender's whole balance deducts the sender once for every output, because
   the bank debits the sender before it calls the send restriction for each output. Once it has
   drifted, the same transfers in another order leave another number (C68_holders_order).
5. **Disabled bridging paths still carry transfers** (C18_paths_refuted): `Transfer`
   checks that the path entry exists, not its value.
6. **Parser panics** (C21_calm_refuted): three malformed payload shapes panic; an index payload
   shorter than 14 bytes is read beyond its length through the slice's capacity.
7. **Vault principal statistics drift upwards** (C33_totals_refuted) because a partial
   unlock rounds the two parts separately.
8. **Yield recipients for undeclared providers are accepted** (C41_recipient_refuted).
9. **Genesis** (C42_roundtrip_refuted, C43_default_refuted): disabled paths are not
   exported, unknown providers come back as IBC, identifiers with a slash do not
   survive, and the default genesis panics in `InitGenesis` because the collector address is empty.
10. Negative account principals are reachable (a transfer rounds up, so an account
    that sends everything may end at -1).
11. Two identifiers that name the same hyperlane token use a collateral read
    before the loop, so the second write overwrites the first.
12. Yield claimed for the warp account stays there when the total collateral is not
    positive, and the remainder of the split always stays there.
13. A flexible unlock can fail because the yield account cannot pay the position's
    yield (same cause as 1; C51_withdrawal_refuted).
14. The pending rewards query reports rewards although the payout is 0 when the
    flexible vault account has no principal.
15. A portal transfer of amount 0 succeeds and posts a message.
16. **A hyperlane dispatch that fails half way counts its yield twice**
    (C57_covered_refuted, C57_release_refuted). `claimExternalYieldHyperlane` calls the
    warp module without a cached context. If the dispatch fails after the token was
    written, the token keeps the higher collateral and the amount also becomes a retry
    amount, so the next update adds it again. The warp account then holds less than the
    collateral of all tokens and the last holders cannot bring their dollars back.
17. **`endVaultsSeasonOne` keeps the partial writes of a failed withdrawal**
    (C64_season_end_refuted): it logs the error of `unlock` and goes on without a cached
    context, so the position stays while its principal is no longer in the flexible total
    and rewards may already have been paid. No caller at this commit.
18. **Setting the season flag strands every flexible stake** (C65_frozen): lock and unlock
    refuse the flexible vault once season one has ended, and nothing in the module calls
    `endVaultsSeasonOne` (unexported) any more. If an upgrade sets the flag while flexible positions
    exist, no later history changes them, and the accounts holding them never pay out.
19. **The decimals of a token message are ignored** (C14_bytes): `ParseNativeTokenTransfer` skips the
    decimals byte, so the amount is credited unscaled whatever the sender declared. Bytes after the
    destination token are ignored as well.
20. **An ignored update error hides the new index from the log** (C67_money_refuted): `Mint` ignores the
    error of `UpdateIndex`, which emits `IndexUpdated` last. If a later step fails (for instance a hyperlane
    token with two routers), the index is raised and the yield is minted, but no index event says so
    and none says the yield. (The index is still found in the token event, C67_log_bound.) The `amount` of `PositionUnlocked` in the flexible vault contains the position's yield, so
    stakes cannot be followed from the amounts either (C67_unlock_ex).

## Checks of the model against the repository's tests

The Go code cannot be run here, but its tests state inputs and expected outputs. `Tests.v`
replays them on the model and compares every asserted value: the 16 vault tests of
`keeper/msg_server_vaults_test.go`, the three codec tests and the digest test of
`types/portal/ntt` (with Keccak-256 written out, so that the digest of a real Sepolia message
is reproduced), `ics4_wrapper_test.go`, and the IBC and hyperlane end-to-end tests. All agree.
Error texts are not compared. The vault tests start from the default genesis, which panics in
the code as it stands (finding 9), so the replay fills in a collector.

## Mutation testing

`seeded/LOG.jsonl` lists edits made to scratch copies of the model and the claim each is
meant to break. How to read the other fields:

- `theorems_failed`: the lemmas, theorems, tests and examples whose proof scripts were seen to
  fail on the edited model.
- `properties_depending`: the property theorems that use one of those, taken from the
  dependency graph of the unedited development. They were not rechecked one by one, and a
  property in this list need not be false of the edited program.
- `stopped_early`: the run ended as soon as the targeted properties were in that list, so
  further scripts may fail that are not named. Most runs ended this way.
- `claim_evaluated`: what was found by computing with the edited model, where that was done
  (null elsewhere).

So an entry shows that the edit is noticed by a proof the property rests on. It does not by
itself show that the property's statement is strong enough: a lemma that follows a definition
step by step breaks at almost any edit of it, and a different proof of the same statement might
survive. Only entries with `claim_evaluated`, and those where a property theorem or its example
is itself in `theorems_failed`, say more. Earlier revisions of the log gave the dependent
properties under the name `theorems_failed`, which claimed more than was checked.

## Plan per property (as written before the proofs)

| id | plan |
|----|------|
| C01 | integer arithmetic, direct |
| C02 | exact effect of `SendCoins` incl. the restriction |
| C03 | invariant over all operations; potential = totalPrincipal - sum of principals |
| C04 | invariant supply = sum of balances; per-operation supply delta |
| C05 | per-operation non-increase of the yield account |
| C06 | monotonicity per operation, lifted to histories |
| C07 | exact effect of `UpdateIndex` |
| C08, C09 | exact effect of `ClaimYield` |
| C10 | direct + frame over all operations |
| C11 | expected false because of rounding: refute, and prove a bound on the shortfall |
| C12 | expected false (claims to empty accounts): refute, prove the true part |
| C13 | per-operation monotonicity for accounts other than the signer |
| C14 | inversion of `Deliver` and of every parser, down to the bytes |
| C15 | composition of codec round trip and `Mint` |
| C16 | archive monotone over histories |
| C17 | composition of encoders and parsers and `Burn` |
| C18 | expected false (`Has` instead of value): refute, prove the weaker fact |
| C19 | invariant over histories |
| C20 | round-trip theorems over bytes |
| C21 | expected false: refute; prove for the manager and NTT parsers |
| C22 | injectivity of the pre-image (keccak is a parameter) |
| C23, C24 | frame over all operations |
| C25 | invariant |
| C26 | direct |
| C27, C31 | exact characterisation of `Lock` / `Unlock` |
| C28 | induction over the position list |
| C29, C34 | solvency invariants |
| C30 | progress from the invariant |
| C32, C33 | counting invariants; C33 expected false because of rounding: refute + inequality |
| C35, C36 | analysis of the reward loop |
| C37 | frame + exact effect |
| C38 | ghost-free accounting invariant over packets in flight |
| C39 | sum bound; the history part expected false (swallowed error): refute + per-update statement |
| C40 | direct |
| C41 | expected false for undeclared providers: refute + true part |
| C42 | round trip modulo the entries the exporter drops: refute exact, prove modulo |
| C43 | refute under the codec contract |
| C44 | expected false: refute, prove sufficient conditions |
| C45 | string injectivity |
| C46 | definition of the transaction wrapper + theorem on swallowed errors |
| C47, C48 | direct / invariant |
