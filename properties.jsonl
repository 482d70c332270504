{"id": "C01", "title": "Present/principal conversion never over-credits and is tight", "statement": "For every non-negative USDN amount and positive index: the rounded-down principal is the largest integer principal whose present value does not exceed the amount, the rounded-up principal is the smallest integer principal whose present value is at least the amount, they differ by at most one, converting an amount down and back never yields more than the amount, and converting up and back never yields less. The conversions are monotone in the amount. Out of range inputs abort instead of wrapping.", "quantifier": "all integer amounts >= 0 and all indices > 0", "why_tests_cant": "Unit tests evaluate a handful of literals; rounding errors hide at particular residues modulo the index.", "anchors": ["keeper/math.go:GetPrincipalAmountRoundedUp", "keeper/math.go:GetPrincipalAmountRoundedDown", "keeper/math.go:GetPresentAmount"]}
{"id": "C02", "title": "A USDN transfer moves exactly its amount and exactly the rounded-up principal", "statement": "A successful transfer of x>0 USDN between two accounts that are neither the issuance module nor the yield account lowers the sender's balance by x and principal by ceil(x*1e12/index), raises the recipient's by the same two numbers (net zero for a self transfer), and changes no other account's balance or principal, nor the supply, total principal, index, vault or portal state. It fails exactly when the sender's balance is below x (or an integer overflows).", "quantifier": "all states, senders, recipients and amounts", "why_tests_cant": "Tests check a few transfers on fresh states; self transfers, negative principals and arbitrary indices are not enumerable.", "anchors": ["keeper/keeper.go:SendRestrictionFn"]}
{"id": "C03", "title": "Issuance and redemption keep the principal books balanced over any history", "statement": "In every state reachable by any sequence of messages (successful, failed or panicking), the total principal statistic minus the sum of all account principals is at least 0 and at most the number of successful issuances so far.", "quantifier": "all finite histories of all messages from a fresh genesis", "why_tests_cant": "It is an invariant over unbounded histories mixing issuance, redemption, transfers, vault and yield operations and partially applied index updates.", "anchors": ["keeper/keeper.go:SendRestrictionFn", "keeper/msg_server.go:Mint", "keeper/msg_server.go:Burn", "keeper/msg_server.go:claimStakedVaultYield", "keeper/state.go:IncrementTotalPrincipal"]}
{"id": "C04", "title": "USDN is conserved: supply equals the sum of balances and changes only by issuance, redemption and yield accrual", "statement": "In every reachable state the bank supply equals the sum of all balances and no balance is negative. Supply rises only in a VAA delivery (by the issued amount plus newly accrued yield) and falls only in a portal transfer (by exactly the transferred amount); every other message leaves it unchanged.", "quantifier": "all finite histories of all messages", "why_tests_cant": "Quantifies over every message and history, including swallowed errors inside issuance.", "anchors": ["keeper/msg_server.go:Mint", "keeper/msg_server.go:Burn", "keeper/msg_server.go:UpdateIndex", "keeper/keeper.go:SendRestrictionFn"]}
{"id": "C05", "title": "Only the module can fund the yield account", "statement": "A transfer of a positive amount of USDN into the yield account by any account other than the issuance module is rejected, whoever sends it and by whatever message; so the yield account's balance increases only in a VAA delivery.", "quantifier": "all states, senders, amounts and messages", "why_tests_cant": "Needs every message path into the bank, not a sample.", "anchors": ["keeper/keeper.go:SendRestrictionFn"]}
{"id": "C06", "title": "The index never decreases", "statement": "Along every history the index is non-decreasing; a successful index update strictly increases it; and an index message carrying a value not above the current index is rejected and changes nothing.", "quantifier": "all histories; all 64-bit index values carried by any message", "why_tests_cant": "Histories and message contents are unbounded; partially failing updates must be covered.", "anchors": ["keeper/msg_server.go:UpdateIndex", "keeper/msg_server.go:Mint", "keeper/keeper.go:HandlePayload"]}
{"id": "C07", "title": "An index update mints exactly the yield owed on the total principal", "statement": "When an index update to i is applied, the amount of USDN created is exactly floor(totalPrincipal*i/1e12) minus the previous supply, it is all credited to the yield account, the supply afterwards equals floor(totalPrincipal*i/1e12), the accrued-yield statistic grows by the same amount, and no user account's balance or principal is lowered.", "quantifier": "all states and indices", "why_tests_cant": "Depends on arbitrary principal, supply and index values.", "anchors": ["keeper/msg_server.go:UpdateIndex", "keeper/state.go:IncrementTotalYieldAccrued"]}
{"id": "C08", "title": "Claiming yield pays exactly the claimable amount and nothing else changes", "statement": "A successful yield claim moves from the yield account to the signer exactly max(0, floor(principal*index/1e12) - balance), except that an entitlement of exactly 1 pays 0; principal, supply, index, statistics and every other account are unchanged.", "quantifier": "all states and signers", "why_tests_cant": "Tests cover a few principals; the formula must hold at all rounding residues and negative principals.", "anchors": ["keeper/msg_server.go:ClaimYield", "keeper/keeper.go:GetYield"]}
{"id": "C09", "title": "Yield cannot be claimed twice", "statement": "Directly after a successful claim the claimable amount of the same account is 0, and a second claim succeeds and pays 0.", "quantifier": "all states and signers", "why_tests_cant": "Idempotence for all states, not examples.", "anchors": ["keeper/msg_server.go:ClaimYield", "keeper/keeper.go:GetYield"]}
{"id": "C10", "title": "Pausing stops yield claims", "statement": "While the dollar module is paused every yield claim fails and changes nothing; only the configured authority can change the paused flag.", "quantifier": "all states, signers and histories", "why_tests_cant": "Quantifies over every signer string and every other message.", "anchors": ["keeper/msg_server.go:ClaimYield", "keeper/msg_server.go:SetPausedState", "keeper/state.go:GetPaused"]}
{"id": "C11", "title": "The yield account can always pay every claim", "statement": "In every reachable state the sum of all accounts' claimable yield is at most the yield account's balance.", "quantifier": "all reachable states", "why_tests_cant": "A global solvency invariant over unbounded histories.", "anchors": ["keeper/keeper.go:GetYield", "keeper/keeper.go:SendRestrictionFn", "keeper/msg_server.go:UpdateIndex"]}
{"id": "C12", "title": "The total-holders statistic counts the accounts with a non-zero balance", "statement": "In every reachable state TotalHolders equals the number of accounts (other than the module and yield accounts) holding a non-zero USDN balance.", "quantifier": "all reachable states", "why_tests_cant": "Counter drift only shows up over long or unusual histories.", "anchors": ["keeper/keeper.go:SendRestrictionFn", "keeper/state.go:IncrementTotalHolders", "keeper/state.go:DecrementTotalHolders"]}
{"id": "C13", "title": "Nobody can take my funds without my signature", "statement": "Whatever message anyone else submits, and however it succeeds or fails, the USDN balance and principal of a user account do not decrease; they can decrease only in a message signed by that account.", "quantifier": "all states, all messages, all user accounts", "why_tests_cant": "Non-interference over all messages and states.", "anchors": ["keeper/keeper.go:SendRestrictionFn", "keeper/msg_server.go:ClaimYield", "keeper/msg_server.go:Mint", "keeper/msg_server_vaults.go:Lock", "keeper/msg_server_vaults.go:unlock", "keeper/msg_server_portal.go:Transfer"]}
{"id": "C14", "title": "A VAA takes effect only if it is authentic and addressed to this chain", "statement": "If delivering bytes changes anything, then the portal was not paused, the bytes are a guardian-verified VAA not consumed before, its emitter address is the transceiver and its source manager the manager registered for the emitter chain, its recipient manager is this chain's manager, and, if it carries a token or index payload, that payload names this chain as destination (and USDN as the destination token). Every delivery that succeeds consists of exactly the bytes of the wire format with these values in it, and issues the amount written there, applies the index written there, or, if the payload has another prefix, only marks the VAA as consumed.", "quantifier": "all states and all byte strings", "why_tests_cant": "Malicious byte strings are not enumerable.", "anchors": ["keeper/keeper.go:Deliver", "keeper/keeper.go:HandlePayload", "types/portal/ntt/transceiver.go:ParseTransceiverMessage", "types/portal/payload.go:GetPayloadType"]}
{"id": "C15", "title": "A token VAA credits exactly the encoded amount to the encoded recipient", "statement": "For every amount below 2^64, recipient, index and destination accepted by the portal, delivering a VAA whose payload is the NTT encoding of that transfer issues exactly that amount to the account named by the last 20 bytes of the recipient field, after applying the carried index if it is higher; the recipient's balance rises by at least the amount and for a user account by exactly the amount, unless that user is the season-two yield collector. No other user account changes. A VAA carrying no higher index is accepted whenever the amounts stay in range.", "quantifier": "all states and all NTT transfers", "why_tests_cant": "Byte-level decoding of arbitrary messages combined with arbitrary states.", "anchors": ["keeper/keeper.go:Deliver", "keeper/keeper.go:HandlePayload", "keeper/msg_server.go:Mint", "types/portal/payload.go:DecodeTokenPayload"]}
{"id": "C16", "title": "A VAA is consumed at most once", "statement": "After a VAA has been delivered successfully, delivering the same VAA again fails and changes nothing, in every later state of every history.", "quantifier": "all histories and VAAs", "why_tests_cant": "Replay after arbitrary intervening histories.", "anchors": ["keeper/keeper.go:Deliver"]}
{"id": "C17", "title": "A portal transfer burns exactly what its outgoing message says", "statement": "A successful portal transfer of x lowers the signer's balance and the supply by exactly x, and posts exactly one message. Its bytes are exactly those of the NTT format (prefixes, big-endian lengths and numbers, 32-byte fields in their order), and decoded by the NTT parsers it has amount x, source token USDN, the requested recipient, destination chain and destination token, the current index, the signer as sender, the consumed nonce as id, this chain's manager as source and the peer's manager as recipient manager.", "quantifier": "all states and transfer messages", "why_tests_cant": "Requires encoder/decoder agreement for all field values, including near 2^63/2^64.", "anchors": ["keeper/msg_server_portal.go:Transfer", "keeper/msg_server.go:Burn", "types/portal/ntt/ntt.go", "types/portal/ntt/manager.go", "types/portal/ntt/transceiver.go", "types/portal/additional_payload.go"]}
{"id": "C18", "title": "Transfers only leave along supported bridging paths", "statement": "If a portal transfer succeeds, then its destination chain and token were last configured as supported by the portal owner.", "quantifier": "all reachable states and transfer messages", "why_tests_cant": "Depends on the history of path configuration messages.", "anchors": ["keeper/msg_server_portal.go:Transfer", "keeper/msg_server_portal.go:SetBridgingPath"]}
{"id": "C19", "title": "Outgoing message identifiers are unique", "statement": "Along every history with at most 2^32 successful portal transfers, the nonces of the posted messages are pairwise distinct and each successful transfer advances the nonce by exactly one modulo 2^32, no other message changes it.", "quantifier": "all histories", "why_tests_cant": "Unbounded histories; wrap-around.", "anchors": ["keeper/state_portal.go:IncrementPortalNonce", "keeper/msg_server_portal.go:Transfer"]}
{"id": "C20", "title": "NTT codecs are inverse to each other", "statement": "For every transceiver message, manager message, native token transfer, additional payload and index payload whose fields have their declared sizes, parsing its encoding succeeds and returns exactly the same fields; and any byte string accepted by the manager and native-token-transfer parsers re-encodes to itself (up to the ignored decimals byte and an explicitly encoded empty additional payload).", "quantifier": "all field values and byte strings", "why_tests_cant": "Codec correctness for all inputs.", "anchors": ["types/portal/ntt/ntt.go", "types/portal/ntt/manager.go", "types/portal/ntt/transceiver.go", "types/portal/additional_payload.go", "types/portal/payload.go"]}
{"id": "C21", "title": "Malformed portal payloads are rejected with an error and never crash the parser", "statement": "For every byte string, delivering a VAA whose payload is that byte string returns success or an error, and never panics because of the payload's shape.", "quantifier": "all byte strings", "why_tests_cant": "Fuzzing samples; slice bounds hide at specific lengths.", "anchors": ["types/portal/ntt/transceiver.go:ParseTransceiverMessage", "types/portal/payload.go:DecodeTokenPayload", "types/portal/payload.go:DecodeIndexPayload"]}
{"id": "C22", "title": "The message digest commits to the whole message", "statement": "Two manager messages with 32-byte id and sender and payloads shorter than 65536 bytes have the same digest pre-image exactly when their source chain, id, sender and payload are all equal.", "quantifier": "all pairs of messages", "why_tests_cant": "Injectivity is a statement about all pairs.", "anchors": ["types/portal/ntt/manager.go:ManagerMessageDigest", "types/portal/ntt/manager.go:EncodeManagerMessage"]}
{"id": "C23", "title": "Only the portal owner administers the portal", "statement": "The portal's owner, paused flag, peers and bridging paths can be changed only by a message whose signer equals the current owner; if no owner is set nobody can change them. Each admin message changes only its own item, to the requested value.", "quantifier": "all states, histories, messages and signers", "why_tests_cant": "Access control over every message.", "anchors": ["keeper/msg_server_portal.go:EnsureOwner", "keeper/msg_server_portal.go:SetPausedState", "keeper/msg_server_portal.go:SetPeer", "keeper/msg_server_portal.go:SetBridgingPath", "keeper/msg_server_portal.go:TransferOwnership"]}
{"id": "C24", "title": "Only the authority changes pause flags and yield recipients", "statement": "The dollar paused flag, the vaults paused state and the yield recipients can be changed only by a message whose signer is the configured authority.", "quantifier": "all states, messages and signers", "why_tests_cant": "Access control over every message.", "anchors": ["keeper/msg_server.go:SetPausedState", "keeper/msg_server_vaults.go:SetPausedState", "keeper/msg_server_v2.go:SetYieldRecipient"]}
{"id": "C25", "title": "Registered peers and paths are always well formed", "statement": "In every reachable state every registered peer has a chain id that is neither 0 nor this chain's, and 32-byte non-zero transceiver and manager addresses; every bridging path has a foreign chain id and a 32-byte non-zero token.", "quantifier": "all reachable states", "why_tests_cant": "Invariant over histories of admin messages.", "anchors": ["keeper/msg_server_portal.go:SetPeer", "keeper/msg_server_portal.go:SetBridgingPath"]}
{"id": "C26", "title": "A paused portal neither receives nor sends", "statement": "While the portal is paused, every delivery and every transfer fails and changes nothing.", "quantifier": "all states and messages", "why_tests_cant": "All inputs.", "anchors": ["keeper/keeper.go:Deliver", "keeper/msg_server_portal.go:Transfer"]}
{"id": "C27", "title": "Locking moves exactly the amount into the vault and records it", "statement": "A successful lock of x in a vault lowers the signer's balance by x, raises the vault account (the shared staked account, or the account private to this position) by x, creates exactly one new position with amount x, the current index and rounded-down principal, and leaves all other positions and balances unchanged. It succeeds exactly when the vault exists, is open, x is at least the minimum and at most the balance, and the signer has no position in that vault from the same second (and no integer overflows).", "quantifier": "all states, signers, vaults, amounts", "why_tests_cant": "Exact acceptance condition over all inputs.", "anchors": ["keeper/msg_server_vaults.go:Lock"]}
{"id": "C28", "title": "Unlocking releases exactly the requested amount, oldest positions first", "statement": "A successful unlock of x lowers the sum of the signer's positions in that vault by exactly x, consuming positions in order of lock time, all fully except possibly the last touched; other users' positions and the other vault's positions are unchanged; which positions remain depends only on the user's positions in the vault and on x; and the signer receives exactly x from a staked vault and at least x from a flexible vault.", "quantifier": "all reachable states, signers, amounts", "why_tests_cant": "Loops over unbounded position lists.", "anchors": ["keeper/msg_server_vaults.go:unlock", "keeper/msg_server_vaults.go:Unlock"]}
{"id": "C29", "title": "Locked stakes are always backed", "statement": "In every reachable state the staked vault account holds at least the sum of all staked positions, and every flexible position's own account holds at least that position's amount.", "quantifier": "all reachable states", "why_tests_cant": "Invariant over unbounded histories incl. index updates in both seasons.", "anchors": ["keeper/msg_server_vaults.go:Lock", "keeper/msg_server_vaults.go:unlock", "keeper/msg_server.go:claimStakedVaultYield", "keeper/msg_server.go:handleVaultsYieldSeasonTwo"]}
{"id": "C30", "title": "A staked position can always be withdrawn", "statement": "In every reachable state in which unlocking is not paused, a user with staked positions of total T can unlock any amount between the minimum and T, or exactly T, and the message succeeds (absent integer overflow).", "quantifier": "all reachable states, users, amounts", "why_tests_cant": "Liveness over all reachable states.", "anchors": ["keeper/msg_server_vaults.go:Unlock", "keeper/msg_server_vaults.go:unlock"]}
{"id": "C31", "title": "Lock acceptance and unlock acceptance follow the documented limits", "statement": "Unlock is rejected without effect if the amount is missing, zero or negative, exceeds the user's total, or is below the minimum and not the user's whole total; if unlocking is paused; or if it targets the flexible vault after season one. Lock is rejected without effect when paused, when below the minimum, for unknown vaults, or for the flexible vault after season one.", "quantifier": "all states and messages", "why_tests_cant": "All inputs.", "anchors": ["keeper/msg_server_vaults.go:Lock", "keeper/msg_server_vaults.go:Unlock", "keeper/msg_server_vaults.go:unlock"]}
{"id": "C32", "title": "Vault user counts equal the number of users with positions", "statement": "In every reachable state the staked and flexible user counters equal the number of distinct users having at least one position in that vault.", "quantifier": "all reachable states", "why_tests_cant": "Counter drift/underflow over histories.", "anchors": ["keeper/msg_server_vaults.go:Lock", "keeper/msg_server_vaults.go:unlock", "keeper/state_vaults.go:IncrementVaultUsers", "keeper/state_vaults.go:DecrementVaultUsers"]}
{"id": "C33", "title": "Vault principal statistics equal the sum of position principals", "statement": "In every reachable state each vault's total principal statistic equals the sum of the principals of its positions (and the flexible total used for reward shares equals the flexible statistic).", "quantifier": "all reachable states", "why_tests_cant": "Rounding drift accumulates over histories of partial unlocks.", "anchors": ["keeper/msg_server_vaults.go:Lock", "keeper/msg_server_vaults.go:unlock", "keeper/state_vaults.go:IncrementVaultTotalPrincipal", "keeper/state_vaults.go:DecrementVaultTotalPrincipal"]}
{"id": "C34", "title": "Flexible vault rewards are always backed and never over-distributed", "statement": "In every reachable state (with flexible principal totals up to 10^18) every reward record's remaining rewards are non-negative, and the flexible vault account holds at least the sum of all remaining rewards; so a reward payout never fails for lack of funds, and a record never pays out more than was recorded.", "quantifier": "all reachable states", "why_tests_cant": "Decimal rounding over unbounded sequences of claims.", "anchors": ["keeper/msg_server_vaults.go:ClaimRewards", "keeper/msg_server.go:handleVaultsYieldSeasonOne"]}
{"id": "C35", "title": "No reward for a stay that does not span a complete index cycle", "statement": "A flexible unlock pays no reward for records at or below the position's entry index nor for the record of the current index; in particular locking and unlocking at the same index pays no reward.", "quantifier": "all reachable states", "why_tests_cant": "All positions and record sets.", "anchors": ["keeper/msg_server_vaults.go:ClaimRewards"]}
{"id": "C36", "title": "The pending-reward query predicts the payout", "statement": "For a user with a single flexible position, in a state where the flexible vault has principal, the pending rewards reported by the query are exactly the rewards paid when the whole position is unlocked in that state; and queries never change state.", "quantifier": "all states", "why_tests_cant": "Two separately written loops must agree on all states.", "anchors": ["keeper/query_server_vaults.go:PendingRewardsByProvider", "keeper/msg_server_vaults.go:ClaimRewards"]}
{"id": "C37", "title": "After season one the flexible vault is closed and staked yield goes to the collector", "statement": "Once season one has ended, flexible locks and unlocks are rejected, no reward records are created, and every index update forwards the staked vault's claimed yield in full to the collector leaving the staked vault's balance unchanged.", "quantifier": "all states and histories", "why_tests_cant": "All states and update values.", "anchors": ["keeper/msg_server_vaults.go:Lock", "keeper/msg_server_vaults.go:Unlock", "keeper/msg_server.go:handleVaultsYieldSeasonTwo"]}
{"id": "C38", "title": "IBC yield is never lost", "statement": "For every channel, in every reachable state: the total external yield statistic equals the retry amount plus the amounts of yield packets sent and not failed. A timed out or refused yield packet adds exactly its amount to the retry amount; other packets add nothing. On any port and in any state, the callbacks count a packet as yield only if its sender is the escrow account of its own port and channel.", "quantifier": "all histories of index updates, acknowledgements and timeouts, all transfer outcomes", "why_tests_cant": "Asynchronous schedules of acks and timeouts over unbounded histories.", "anchors": ["keeper/msg_server.go:claimExternalYieldIBC", "ibc_middleware.go:AddAmountToRetry", "ibc_middleware.go:OnAcknowledgementPacket", "ibc_middleware.go:OnTimeoutPacket", "keeper/state.go:GetRetryAmountAndRemove", "keeper/state.go:IncrementRetryAmount"]}
{"id": "C39", "title": "Hyperlane yield is split without exceeding the claimed amount and never lost", "statement": "On every index update the portions assigned to the hyperlane routes are proportional to collateral rounded down and sum to at most the yield claimed for the warp account; for every route the total external yield equals the retry amount plus the amounts dispatched.", "quantifier": "all states, collaterals and dispatch outcomes", "why_tests_cant": "Arbitrary collateral vectors and failure points.", "anchors": ["keeper/msg_server.go:claimExternalYieldHyperlane"]}
{"id": "C40", "title": "USDN leaves over IBC only on enabled channels; other tokens are unaffected", "statement": "An outgoing packet carrying USDN is refused on a channel without a configured yield recipient, and every other packet is passed unchanged to the underlying channel.", "quantifier": "all packets and states", "why_tests_cant": "All packet contents.", "anchors": ["isc4_wrapper.go:SendPacket", "keeper/state.go:HasYieldRecipient"]}
{"id": "C41", "title": "Yield recipients are only set for existing routes", "statement": "Whenever setting a yield recipient succeeds, its provider is IBC with an existing transfer channel, or Hyperlane with an existing token with exactly one enrolled router; and exactly that recipient entry changes.", "quantifier": "all states and messages", "why_tests_cant": "All enum values and identifiers, including undeclared enum numbers.", "anchors": ["keeper/msg_server_v2.go:SetYieldRecipient", "keeper/msg_server_v2.go:getHyperlaneRouter"]}
{"id": "C42", "title": "Genesis export and import round-trips", "statement": "Initialising a chain from the exported genesis of any reachable state reproduces the module state exactly.", "quantifier": "all reachable states", "why_tests_cant": "All reachable states.", "anchors": ["genesis.go:InitGenesis", "genesis.go:ExportGenesis", "types/v2/provider.go:ParseYieldRecipientKey"]}
{"id": "C43", "title": "The default genesis can be initialised", "statement": "InitGenesis on the default genesis state succeeds.", "quantifier": "all address codecs that reject the empty string", "why_tests_cant": "Depends on the address codec contract.", "anchors": ["genesis.go:InitGenesis", "types/v2/genesis.go:DefaultGenesisState"]}
{"id": "C44", "title": "Index updates cannot be blocked", "statement": "In every reachable state an authentic index message with a higher index is applied.", "quantifier": "all reachable states and higher indices", "why_tests_cant": "Liveness over all reachable states.", "anchors": ["keeper/msg_server.go:UpdateIndex"]}
{"id": "C45", "title": "Position accounts are private", "statement": "The account of a flexible position is determined by owner and lock time, different positions have different accounts, and none of them is the module, yield, staked, flexible or warp account.", "quantifier": "all owners and times", "why_tests_cant": "Injectivity of a name format over all inputs.", "anchors": ["keeper/msg_server_vaults.go:ToUserVaultPositionModuleAccount", "types/vaults/keys.go", "types/keys.go"]}
{"id": "C46", "title": "Failed messages have no effect", "statement": "A message that returns an error or panics leaves the whole state unchanged; the only errors swallowed inside a successful message are those of the index update inside issuance and of the outgoing yield transfers.", "quantifier": "all states and messages, all failure points", "why_tests_cant": "Crash points.", "anchors": ["keeper/msg_server.go:Mint", "keeper/msg_server.go:claimExternalYieldIBC"]}
{"id": "C47", "title": "The in-place migration preserves the statistics", "statement": "Migrating from version 1 to version 2 keeps total holders, total principal and total yield accrued, and nothing else changes.", "quantifier": "all states", "why_tests_cant": "All states.", "anchors": ["keeper/migrations.go:Migrate1to2"]}
{"id": "C48", "title": "Total accrued yield is the sum of all yield ever minted", "statement": "Along every history the accrued-yield statistic never decreases, and supply = initial supply + issued - redeemed + accrued yield.", "quantifier": "all histories", "why_tests_cant": "History-dependent accounting identity.", "anchors": ["keeper/msg_server.go:UpdateIndex", "keeper/state.go:IncrementTotalYieldAccrued"]}
{"id": "C49", "title": "Every index update of season one records exactly the vaults' yield", "statement": "While season one lasts, an accepted index message adds exactly one reward record, under the new index, holding the total flexible principal and the yield then claimable by the flexible and the staked vault accounts. The flexible vault's account receives that yield, the staked vault's balance is unchanged, and for indices up to 10^18 the principal of the staked yield, rounded down, moves from the staked to the flexible account. A token message with a higher index adds the same record or none.", "quantifier": "all reachable states, indices and messages", "why_tests_cant": "Ties three accounts and a map together for every state and index.", "anchors": ["keeper/msg_server.go:handleVaultsYieldSeasonOne", "keeper/msg_server.go:UpdateIndex", "keeper/msg_server.go:Mint"]}
{"id": "C50", "title": "A flexible withdrawal pays exactly the stake, the due share of each record and the position's yield", "statement": "A successful withdrawal of x from the flexible vault touches positions oldest first. For each touched position the user gets the part withdrawn, for every record above the position's index (except one at the current index) the record's rewards times the part's principal over the record's total, and the yield waiting on the position's account. All records, balances, principals and statistics afterwards are determined by this computation. A share differs from the exact pro-rata share by less than two units down and at most one unit up.", "quantifier": "all reachable states, users, positions, records and amounts", "why_tests_cant": "Arbitrarily many positions and records interact through shared rounding.", "anchors": ["keeper/msg_server_vaults.go:Unlock", "keeper/msg_server_vaults.go:ClaimRewards"]}
{"id": "C51", "title": "A flexible position can always be withdrawn", "statement": "In every reachable state in which withdrawals are open, a user can withdraw any amount within the limits from their flexible positions.", "quantifier": "all reachable states and users", "why_tests_cant": "Liveness over all reachable states.", "anchors": ["keeper/msg_server_vaults.go:Unlock", "keeper/msg_server_vaults.go:ClaimRewards", "keeper/keeper.go:SendRestrictionFn"]}
{"id": "C52", "title": "Issuance and redemption move exactly the right balance and principal", "statement": "Delivering a token message adds the principal of the amount, rounded up at the index in force afterwards, to the total principal (nothing when the recipient is the yield account). When the message does not raise the index, exactly the recipient's balance grows by the amount and its principal by the rounded-down principal, the supply by the amount, and nothing else changes except the consumed VAA. A redemption takes the amount and its rounded-up principal from the signer, the same principal from the total, the amount from the supply, and changes nothing else except the posted message and the nonce.", "quantifier": "all reachable states and messages", "why_tests_cant": "All amounts, indices and recipients, including the rounding and the frame.", "anchors": ["keeper/msg_server.go:Mint", "keeper/msg_server.go:Burn", "keeper/keeper.go:SendRestrictionFn", "keeper/msg_server_portal.go:Deliver", "keeper/msg_server_portal.go:Transfer"]}
{"id": "C53", "title": "IBC and Hyperlane transfers have exactly the effect of a transfer", "statement": "A user's outgoing IBC or Hyperlane transfer has the balance and principal effect of a plain transfer to the channel's escrow account or the warp account, plus exactly the packet, respectively the dispatched message and the token's collateral. An incoming transfer is a plain transfer from escrow or the warp account. A failed packet is refunded to its sender, and only yield packets add to the channel's retry amount.", "quantifier": "all reachable states, users, channels, tokens, amounts and packets", "why_tests_cant": "Interaction of three modules over all states.", "anchors": ["isc4_wrapper.go:SendPacket", "ibc_middleware.go:OnTimeoutPacket", "ibc_middleware.go:OnAcknowledgementPacket", "keeper/keeper.go:SendRestrictionFn"]}
{"id": "C54", "title": "Queries report exactly the state that messages act on", "statement": "The index query returns the index divided by 1e12 without loss; the principal query the stored principal; the yield query exactly what a successful claim would pay. The destination tokens query lists each supported token of the chain once and no other. The pending rewards query returns the sum over all reward records, the positions query exactly the user's positions in both vaults, and the yield recipient, retry amount and external yield queries return each stored entry under the name of its key and nothing else. The pause flags, the owner, the peers, the supported paths and the recipient of a single route are always those announced by the last successful message, a route never configured gives an error, and the nonce counts the successful transfers. No query changes the state.", "quantifier": "all reachable states, accounts, chains, providers and identifiers", "why_tests_cant": "Name collisions and missed entries need all maps, not samples.", "anchors": ["keeper/query_server.go", "keeper/query_server_portal.go", "keeper/query_server_vaults.go", "keeper/query_server_v2.go", "keeper/state.go:GetTotalExternalYield", "keeper/state_vaults.go:GetVaultsPositionsByProvider"]}
{"id": "C55", "title": "A staked withdrawal and a deposit keep exact books", "statement": "A successful withdrawal of x from the staked vault takes parts of the user's positions that add up to x; principal equal to the sum of the parts' rounded-up principals at the current index moves from the vault account to the user; the vault total falls by the sum of the parts' rounded-down principals at their own indices; records, distributed rewards and the other vault are unchanged. A deposit adds its rounded-down principal to its vault's total (and to the total flexible principal for the flexible vault) and to nothing else.", "quantifier": "all reachable states, users, positions and amounts", "why_tests_cant": "Arbitrarily many positions with per-position rounding.", "anchors": ["keeper/msg_server_vaults.go:Lock", "keeper/msg_server_vaults.go:Unlock"]}
{"id": "C56", "title": "Administration is accepted exactly when valid and unknown messages are ignored", "statement": "Each of the seven administrative messages succeeds if and only if its signer is the owner, respectively the authority, and its fields satisfy the stated validity conditions. An authentic portal message whose payload is neither a token transfer nor an index update is consumed and changes nothing else.", "quantifier": "all states, signers and message fields", "why_tests_cant": "Both directions over all inputs.", "anchors": ["keeper/msg_server_portal.go", "keeper/msg_server_vaults.go:SetPausedState", "keeper/msg_server.go:SetPausedState", "keeper/msg_server_v2.go:SetYieldRecipient"]}
{"id": "C57", "title": "The warp account covers the collateral of all Hyperlane tokens", "statement": "In every reachable state the warp account holds at least the recorded collateral of all Hyperlane tokens plus all Hyperlane yield waiting to be sent again, so dollars up to a token's collateral can always be released to a permitted account.", "quantifier": "all finite histories of all messages", "why_tests_cant": "Needs every history of transfers, index updates and failing dispatches.", "anchors": ["keeper/msg_server.go:claimExternalYieldHyperlane", "keeper/msg_server.go:UpdateIndex", "keeper/keeper.go:SendRestrictionFn"]}
{"id": "C59", "title": "The escrow of a channel covers packets in flight, dollars abroad and waiting yield", "statement": "After every history the escrow account of a channel holds at least the dollars in packets waiting for their acknowledgement, plus the dollars that arrived on the other chain and were not returned, plus the channel's retry amount. So while the other chain returned no more than it received, every failed packet can be refunded, and dollars that arrived can be returned.", "quantifier": "all finite histories of all messages, channels and packets", "why_tests_cant": "Needs every interleaving of sends, yield packets, acknowledgements, timeouts and returns.", "anchors": ["keeper/msg_server.go:claimExternalYieldIBC", "ibc_middleware.go:OnTimeoutPacket", "ibc_middleware.go:OnAcknowledgementPacket", "isc4_wrapper.go:SendPacket"]}
{"id": "C58", "title": "The stored state stays well formed", "statement": "Between messages the issuance account is empty, the index is positive and fits an int64, the nonce fits 32 bits; every stored position belongs to a user, is in one of the two vaults, carries its key's time which is not in the future, has a positive amount, an entry index not above the current one and at least the principal its amount is worth; every reward record carries its key and is not above the current index; collateral and retry amounts are not negative; every packet in flight that carries USDN has a positive amount and comes from a user, another module or the escrow of its channel. A declared pause value of the vaults stays a declared one.", "quantifier": "all finite histories of all messages", "why_tests_cant": "An invariant over unbounded histories, including partially applied index updates and partial withdrawals.", "anchors": ["keeper/msg_server_vaults.go:Lock", "keeper/msg_server_vaults.go:Unlock", "keeper/msg_server_vaults.go:SetPausedState", "keeper/msg_server.go:UpdateIndex", "ibc_middleware.go:AddAmountToRetry"]}
{"id": "C60", "title": "What an account is worth never falls without its owner's signature", "statement": "Let the worth of an account be its balance, or its principal at the current index where that is more. The worth of a user does not fall over any history without messages signed by that user. A claim of yield changes nobody's worth and leaves the user a balance within one unit of it. A transfer of x lowers the sender's worth by at least x and raises the recipient's by at least x, both by at most one principal unit more (the index rounded up), and changes no other account's worth. An issuance of x at the current index raises the recipient's worth by at most x and at least x minus one principal unit.", "quantifier": "all states, users, amounts and histories", "why_tests_cant": "Rounding at every residue of the index and histories of arbitrary length.", "anchors": ["keeper/keeper.go:SendRestrictionFn", "keeper/keeper.go:GetYield", "keeper/msg_server.go:ClaimYield", "keeper/msg_server.go:Mint"]}
{"id": "C61", "title": "Messages that undo each other restore the books", "statement": "At an unchanged index: sending an amount and sending it back restores every balance, every principal, the supply and the total principal. So do an IBC transfer that times out or is rejected (which also restores the packets in flight and leaves no retry amount), and a hyperlane transfer that comes back (which also restores the collateral). Issuing an amount and redeeming it restores every balance, the supply and the total principal, and costs the user at most one unit of principal. Locking an amount and unlocking it never costs the user; in the staked vault it restores every balance, and if the user had no other stake there also every principal, the positions and the vault's statistics.", "quantifier": "all states, accounts, amounts, channels and tokens", "why_tests_cant": "Two messages from any reachable state; rounding differs at every residue of the index.", "anchors": ["keeper/keeper.go:SendRestrictionFn", "keeper/msg_server_vaults.go:Lock", "keeper/msg_server_vaults.go:Unlock", "keeper/msg_server.go:Mint", "keeper/msg_server.go:Burn", "ibc_middleware.go:OnTimeoutPacket"]}
{"id": "C62", "title": "Everything an index update changes", "statement": "A successful index update to i changes exactly this. The index becomes i; the accrued yield max(0, floor(total principal * i / 10^12)) minus the supply is minted to the yield account and counted. Out of it every claimant gets its claim: in season one both vaults' claims go to the flexible vault with a reward record at i, afterwards the staked vault's claim goes to the collector; the warp account and the escrow of every channel with a recipient get theirs. Principal moves only from the staked vault to the flexible vault, respectively the collector, by the staked claim's principal. Every channel's claim and waiting amount go out in one packet to its recipient, in ascending order of channels, if the channel accepts it, and otherwise wait; every Hyperlane route's share of the warp account's claim and waiting amount go out in one message to its recipient and domain, in ascending order of identifiers, if the warp module accepts it, and otherwise wait; the collateral of every attempted route grows by the amount. Nothing else in the dollar, vault, portal, bank and outside state changes, except the number of holders (C12). A token message with a higher index has this effect followed by the issuance.", "quantifier": "all reachable states, indices, numbers of channels and routes and outcomes of the external calls", "why_tests_cant": "The whole effect over arbitrarily many channels and routes with every combination of accepted, rejected and half-executed transfers.", "anchors": ["keeper/msg_server.go:UpdateIndex", "keeper/msg_server.go:claimExternalYieldIBC", "keeper/msg_server.go:claimExternalYieldHyperlane", "keeper/msg_server.go:handleVaultsYieldSeasonOne", "keeper/msg_server.go:handleVaultsYieldSeasonTwo"]}
{"id": "C63", "title": "Each message touches only its own part of the state", "statement": "For every kind of message there is a fixed list of the parts of the stored state it may change: for example only a delivered VAA changes the index, the accrued yield, the external yield and the consumed VAAs; only deliveries and outgoing transfers change the supply; only locks and unlocks change the positions and the vault statistics; the season flag and the season-two collector are changed by no message, only by an upgrade; an administrative message changes only the field it names. Whatever changes in a step is on the list of that message, and no list can be shortened: each entry is changed by some message of that kind in some reachable state.", "quantifier": "all reachable states, all messages, all 31 parts of the state", "why_tests_cant": "A frame condition over every pair of message and state part; tests check the fields they expect to change.", "anchors": ["keeper/msg_server.go:SetPausedState", "keeper/msg_server.go:SetYieldRecipient", "keeper/msg_server_vaults.go:Lock", "keeper/msg_server_vaults.go:Unlock", "keeper/msg_server_portal.go:Deliver", "keeper/msg_server_portal.go:Transfer", "keeper/keeper.go:SendRestrictionFn"]}
{"id": "C64", "title": "Ending season one returns every flexible stake", "statement": "endVaultsSeasonOne withdraws the whole flexible stake of every user, in the order of the addresses, exactly as unlock messages would: afterwards no flexible position is left and the staked positions are unchanged. A user whose stake cannot be returned is left as before.", "quantifier": "all reachable states and all sets of stakers", "why_tests_cant": "Arbitrarily many users and positions; the failing withdrawals need a drained yield account.", "anchors": ["keeper/msg_server_vaults.go:endVaultsSeasonOne", "keeper/msg_server_vaults.go:unlock"]}
{"id": "C65", "title": "Ending season one in an upgrade freezes the flexible vault and nothing else", "statement": "If an upgrade of the chain ends season one and names a collector at any point of a history, the upgrade itself changes no balance, principal, position or other part of the state. From then on, whatever happens, flexible locks and unlocks are refused, no flexible position is opened, changed or closed, the flexible principal, user count and reward records stay as they are, and neither the flexible vault's account nor any position account ever pays out. All other claims about histories hold for histories with such upgrades too.", "quantifier": "for all chain configurations, reachable states, collectors and message histories before and after the upgrade", "why_tests_cant": "Tests end the season in a handful of fixed states; the claim is about every later history of every chain on which positions exist when the season ends.", "anchors": ["keeper/msg_server_vaults.go:Lock", "keeper/msg_server_vaults.go:Unlock", "keeper/msg_server_vaults.go:endVaultsSeasonOne", "keeper/keeper.go:VaultsSeasonOneEnded", "keeper/state_vaults.go:IsVaultsSeasonOneEnded"]}
{"id": "C66", "title": "The raw store holds exactly the module's state and iterates it in order", "statement": "The prefixes of the 21 collections pass the schema builder's checks, and no key of one collection is a key of another. Two different entries of the state never have the same raw key, so every entry reads back as it was written, the store holds nothing else, and two states with the same store are the same. Iterating a collection visits each of its entries once and nothing of another collection. Iterating the index by provider and vault gives that user's positions of that vault and nobody else's, ascending by time, including negative times, and each index entry points to a stored position; iterating the index by provider gives all positions of that user. Iterating the rewards after an index gives exactly the records above it in ascending order; iterating the recipients of a provider gives exactly those of that provider in ascending order of identifiers. Every history of messages whose integers have their Go types keeps all keys within the encodable types.", "quantifier": "all states whose keys have their Go types and whose accounts have different addresses, all accounts, vaults, indices and histories", "why_tests_cant": "Key collisions and iteration order depend on every combination of address lengths, identifiers and integers; tests use a few short keys.", "anchors": ["keeper/keeper.go:NewKeeper", "types/keys.go", "types/portal/keys.go", "types/vaults/keys.go", "keeper/state_vaults.go", "keeper/state.go:GetYieldRecipients"]}
{"id": "C67", "title": "The events say what happened", "statement": "Every event of the module reports what its message did. A claim reports the amount by which the balance grew. A lock reports the index, amount and principal of the position it stored. The events of an unlock name the signer and the vault; what they say was paid is exactly the rise of the user's balance, their rewards the rise of the distributed rewards, their principals the fall of the vault's principal; in the staked vault the amounts add up to the requested one; the indexes and principals are those of the stored positions in order, all but the last unlocked whole; the first is a reward exactly in the flexible vault and if that has principal. An index message reports the old and new index, the total principal and the minted yield; a token message the source chain, token, sender, recipient, amount, index and digest of its manager message, after an index event if it raised the index; a transfer the amount burned, the recipient, the nonce and the digest of the message it posted. So a reader of the log alone can keep the pause flags, owner, peers, bridging paths and yield recipients, the principal of each vault, the distributed rewards, the consumed VAAs (none twice), the nonces of posted messages, and the index, supply and accrued yield; the old peers and owners that events name are those the events before them gave.", "quantifier": "all messages in all reachable states, and all finite histories from a fresh chain", "why_tests_cant": "A claim about the sum of arbitrarily long logs against the state; the tests check few events and none after ignored errors.", "anchors": ["keeper/msg_server.go:UpdateIndex", "keeper/msg_server.go:ClaimYield", "keeper/msg_server_vaults.go:Lock", "keeper/msg_server_vaults.go:Unlock", "keeper/msg_server_vaults.go:ClaimRewards", "keeper/keeper.go:HandlePayload", "keeper/msg_server_portal.go:Transfer", "keeper/msg_server_portal.go:SetPeer"]}
{"id": "C68", "title": "The order of independent messages does not matter", "statement": "Claims of different accounts that all succeed in one order succeed in every other order and lead to the same state. Transfers in any two orders in which they all succeed, with claims by accounts that take no part in them anywhere in between, lead to the same balances, principals and everything else but the holder statistic (which may differ). Locks, and staked unlocks of different users, in any two orders in which they all succeed lead to the same balances, principals, positions and vault statistics. An index message that is left out is made up for by the next: index, supply, total principal, accrued yield and every user's balance, principal and claimable yield are as if it had arrived. Claiming before and after an index update yields the same as claiming only after it, or one unit less.", "quantifier": "all reachable states, all lists of claims, transfers, locks and staked unlocks and all their permutations, all index messages and transport outcomes", "why_tests_cant": "Permutations of arbitrarily long lists; rounding at every intermediate index could leave a trace.", "anchors": ["keeper/msg_server.go:ClaimYield", "keeper/msg_server.go:UpdateIndex", "keeper/keeper.go:SendRestrictionFn", "keeper/keeper.go:GetYield", "keeper/msg_server_vaults.go:Lock", "keeper/msg_server_vaults.go:Unlock"]}
{"id": "C69", "title": "Moving an amount in parts gains nothing but rounding", "statement": "A transfer carried out in n parts moves the same amount as one over the sum, and at least as much and at most n-1 units more of principal from the sender to the recipient; nobody else and no total is affected. A redemption in n parts burns the same amount and costs the user, and the total principal with them, at most n-1 units more and never less. An issuance in n parts credits the recipient with at most as much principal as one issuance, at most n-1 units less, and raises the total principal by at least as much and at most n-1 units more. A withdrawal from a vault in n parts leaves the same amount in every position as one over the sum, and from the staked vault pays the same.", "quantifier": "all reachable states, all accounts, all lists of parts of any length", "why_tests_cant": "Rounding errors that add up over arbitrarily many parts and any index; tests use single transfers.", "anchors": ["keeper/keeper.go:SendRestrictionFn", "keeper/math.go:GetPrincipalAmountRoundedUp", "keeper/math.go:GetPrincipalAmountRoundedDown", "keeper/msg_server.go:Mint", "keeper/msg_server.go:Burn", "keeper/msg_server_vaults.go:Unlock"]}
