{
 "claims": [
  {
   "property": "C01",
   "status": "proved",
   "theorems": [
    "C01_down_largest",
    "C01_up_smallest",
    "C01_differ_by_one",
    "C01_down_and_back",
    "C01_up_and_back",
    "C01_monotone",
    "C01_range"
   ],
   "note": "All parts, for all amounts and indices; out of range inputs panic."
  },
  {
   "property": "C02",
   "status": "proved",
   "theorems": [
    "C02_transfer_effect",
    "C02_transfer_accepts",
    "C02_send_message",
    "C02_multi_message"
   ],
   "note": "Effect and acceptance for every state; C02_send_message lifts it to the bank message in reachable states."
  },
  {
   "property": "C03",
   "status": "proved",
   "theorems": [
    "C03_books_balanced"
   ],
   "note": "Unbounded induction over histories of all message kinds."
  },
  {
   "property": "C04",
   "status": "proved",
   "theorems": [
    "C04_conserved",
    "C04_supply_changes"
   ],
   "note": "Conservation and per-message supply changes in every reachable state."
  },
  {
   "property": "C05",
   "status": "proved",
   "theorems": [
    "C05_yield_refuses",
    "C05_yield_messages",
    "C05_only_deliveries"
   ],
   "note": "For the bank function and for every message kind. A token VAA addressed to the yield account is a delivery and does credit it (finding F1)."
  },
  {
   "property": "C06",
   "status": "proved",
   "theorems": [
    "C06_index_monotone",
    "C06_index_update",
    "C06_index_refused",
    "C06_index_token"
   ],
   "note": "All histories; index and token payloads separately."
  },
  {
   "property": "C07",
   "status": "proved",
   "theorems": [
    "C07_index_mints_owed",
    "C07_token_mints_owed",
    "C07_accrual_credit"
   ],
   "note": "max 0 covers the corner of a negative total principal, where the code truncates towards zero."
  },
  {
   "property": "C08",
   "status": "proved",
   "theorems": [
    "C08_claim_pays",
    "C08_claim_accepts"
   ],
   "note": "Payment, frame and acceptance."
  },
  {
   "property": "C09",
   "status": "proved",
   "theorems": [
    "C09_claim_twice"
   ],
   "note": "Both the query and a second claim."
  },
  {
   "property": "C10",
   "status": "proved",
   "theorems": [
    "C10_paused_claims_fail",
    "C10_paused_by_authority"
   ],
   "note": "Pausing blocks claims; the flag changes only in the authority's message."
  },
  {
   "property": "C11",
   "status": "partial",
   "theorems": [
    "C11_solvent_refuted",
    "C11_bound_partial"
   ],
   "note": "False of the code: rounding of transfers lets claims exceed the yield account (C11_solvent_refuted, 21 transfers, short by 2). Proved instead: in every reachable state the shortfall of all claims together is at most 1 plus three units of principal per transfer ever made. Missing: exact cover."
  },
  {
   "property": "C12",
   "status": "partial",
   "theorems": [
    "C12_holders_refuted",
    "C12_upper_partial",
    "C12_drift_partial",
    "C12_exact_partial"
   ],
   "note": "False of the code: yield paid to an account without balance is not counted, and a multi-send of the whole balance deducts the sender once per output (C12_holders_refuted, three histories). Proved instead: the statistic never exceeds the true count; it misses at most one per yield payment received by an account without balance and one per further output of a multi-send of the whole balance; it is exact after histories in which no state leaves principal on an empty account and no such multi-send succeeds. Missing: the refuted histories."
  },
  {
   "property": "C13",
   "status": "proved",
   "theorems": [
    "C13_funds_safe",
    "C13_funds_safe_history"
   ],
   "note": "Single messages and whole histories."
  },
  {
   "property": "C14",
   "status": "proved",
   "theorems": [
    "C14_delivery_authentic",
    "C14_bytes"
   ],
   "note": "C14_delivery_authentic: necessary conditions for any effect of a delivery, in every reachable state. C14_bytes: the bytes of every successful delivery, written out without the model's codecs, and its effect."
  },
  {
   "property": "C15",
   "status": "proved",
   "theorems": [
    "C15_credit",
    "C15_accepted"
   ],
   "note": "Effect of every successful delivery of an encoded transfer, and acceptance when the carried index is not higher. Acceptance with a higher index depends on the external calls of the index update (C44). The message is given byte by byte (token_wire in Spec.v), without the model's encoders."
  },
  {
   "property": "C16",
   "status": "proved",
   "theorems": [
    "C16_delivered_once"
   ],
   "note": "Any later state, any VAA bytes with the same digest."
  },
  {
   "property": "C17",
   "status": "proved",
   "theorems": [
    "C17_transfer",
    "C17_readable",
    "C17_accepted"
   ],
   "note": "C17_transfer gives every byte of the posted message, written out without the model's encoders; C17_readable decodes it with the modelled parsers; acceptance included. Chain ids are uint16 in Go, hence the range hypothesis of C17_readable."
  },
  {
   "property": "C18",
   "status": "partial",
   "theorems": [
    "C18_paths_refuted",
    "C18_paths_partial"
   ],
   "note": "Refuted: the code checks only that a path entry exists, so a path set to unsupported still carries transfers. Partial: some successful message by the then owner configured the path."
  },
  {
   "property": "C19",
   "status": "proved",
   "theorems": [
    "C19_nonce_steps",
    "C19_nonces_unique"
   ],
   "note": "Per-message step and uniqueness over whole histories."
  },
  {
   "property": "C20",
   "status": "proved",
   "theorems": [
    "C20_transceiver",
    "C20_manager",
    "C20_ntt",
    "C20_additional",
    "C20_index",
    "C20_token",
    "C20_manager_back",
    "C20_ntt_back"
   ],
   "note": "Round trips for every layer and re-encoding for the manager and NTT parsers."
  },
  {
   "property": "C21",
   "status": "partial",
   "theorems": [
    "C21_calm_refuted",
    "C21_calm_partial",
    "C21_source_partial"
   ],
   "note": "Refuted: three malformed payloads panic. Partial: no panic for messages whose declared lengths fit, and any other panic comes from applying the decoded payload."
  },
  {
   "property": "C22",
   "status": "proved",
   "theorems": [
    "C22_digest"
   ],
   "note": "Injectivity of the bytes that are hashed; collision resistance of Keccak-256 is not modelled."
  },
  {
   "property": "C23",
   "status": "proved",
   "theorems": [
    "C23_owner_only",
    "C23_exact_change",
    "C23_rejects_others"
   ],
   "note": "Owner only, exact effect, rejection of everyone else."
  },
  {
   "property": "C24",
   "status": "proved",
   "theorems": [
    "C24_authority_only",
    "C24_exact_change"
   ],
   "note": "Authority only and exact effects."
  },
  {
   "property": "C25",
   "status": "proved",
   "theorems": [
    "C25_peers_paths"
   ],
   "note": "Invariant of all reachable states."
  },
  {
   "property": "C26",
   "status": "proved",
   "theorems": [
    "C26_paused"
   ],
   "note": "Any state with the flag set."
  },
  {
   "property": "C27",
   "status": "proved",
   "theorems": [
    "C27_lock",
    "C27_accepted"
   ],
   "note": "Exact effect on positions, balances and principal, and acceptance with explicit integer ranges."
  },
  {
   "property": "C28",
   "status": "proved",
   "theorems": [
    "C28_determined",
    "C28_unlock"
   ],
   "note": "Exact effect, order and frame; the extra paid out of a flexible vault is split into rewards and yield with their sources."
  },
  {
   "property": "C29",
   "status": "proved",
   "theorems": [
    "C29_backed"
   ],
   "note": "Inductive invariant over all message kinds."
  },
  {
   "property": "C30",
   "status": "proved",
   "theorems": [
    "C30_withdrawal"
   ],
   "note": "Acceptance proved by running the loop; ranges: stake*10^12 < 2^200, the other quantities < 2^255."
  },
  {
   "property": "C31",
   "status": "proved",
   "theorems": [
    "C31_unlock_rejected",
    "C31_lock_rejected"
   ],
   "note": "In every state, reachable or not."
  },
  {
   "property": "C32",
   "status": "proved",
   "theorems": [
    "C32_users",
    "C32_users_exact"
   ],
   "note": "Modulo 2^64 unconditionally (the counter is a uint64), exact below 2^64 users."
  },
  {
   "property": "C33",
   "status": "partial",
   "theorems": [
    "C33_totals_refuted",
    "C33_totals_partial"
   ],
   "note": "Refuted: rounding twice when a position is cut leaves a unit in the statistic. Partial: the statistic is between the positions and the positions plus one unit per successful unlock of the vault; the flexible total equals the flexible statistic exactly."
  },
  {
   "property": "C34",
   "status": "proved",
   "theorems": [
    "C34_backed",
    "C34_payout",
    "C34_records"
   ],
   "note": "Backing and payout are proved for histories in which the flexible principal total never exceeds 10^18, as the statement says; the record theorem holds for all reachable states. A payout here means ClaimRewards: it never returns an error; an integer overflow panic is not excluded."
  },
  {
   "property": "C35",
   "status": "proved",
   "theorems": [
    "C35_incomplete_cycle",
    "C35_same_index"
   ],
   "note": "Stated on the records: a record at or below the entry index of every position that is reduced, and the record of the current index, keep their remaining rewards, and the flexible account pays exactly what the records lose."
  },
  {
   "property": "C36",
   "status": "proved",
   "theorems": [
    "C36_pending",
    "C36_queries_read"
   ],
   "note": "The condition on the flexible vault's principal is needed: with principal <= 0 the unlock pays nothing while the query reports rewards. Every query of Queries.v is shown to leave the state unchanged."
  },
  {
   "property": "C37",
   "status": "proved",
   "theorems": [
    "C37_closed",
    "C37_no_records",
    "C37_collector"
   ],
   "note": "The collector theorem excludes collectors that are the staked vault itself, the yield or warp account or an IBC escrow. There is no message that ends season one: the flag comes from genesis."
  },
  {
   "property": "C38",
   "status": "proved",
   "theorems": [
    "C38_ledger",
    "C38_failed",
    "C38_acknowledged",
    "C38_callback"
   ],
   "note": "Ledger in every reachable state, for every channel; failed and acknowledged packets exactly. Yield packets are those whose sender is the escrow account of their channel, as in the code."
  },
  {
   "property": "C39",
   "status": "partial",
   "theorems": [
    "C39_split",
    "C39_ledger_refuted",
    "C39_ledger_partial",
    "C39_step_partial",
    "C39_ready_partial"
   ],
   "note": "The split is proved in full for index deliveries (C39_split). The ledger equality is false: a token delivery with a higher index keeps the partial writes of a failing index update, so a retry amount is lost when a route has no unique router or an undecodable recipient (C39_ledger_refuted). Proved: the inequality always, equality for every other message and for histories whose routes stay usable. Stated per token, summing over route identifiers that name it."
  },
  {
   "property": "C40",
   "status": "proved",
   "theorems": [
    "C40_refused",
    "C40_others_pass",
    "C40_only_enabled"
   ],
   "note": "The wrapper for all packets and states, and the resulting invariant of the packets in flight over all histories."
  },
  {
   "property": "C41",
   "status": "partial",
   "theorems": [
    "C41_recipient_refuted",
    "C41_recipient_partial"
   ],
   "note": "Refuted: providers other than IBC and HYPERLANE are accepted without any check. Partial: the statement for the two declared providers."
  },
  {
   "property": "C42",
   "status": "partial",
   "theorems": [
    "C42_roundtrip_refuted",
    "C42_roundtrip_partial",
    "C42_exact_partial"
   ],
   "note": "False as stated: disabled bridging paths are not exported, and recipients set under an unknown provider number come back as IBC (C42_roundtrip_refuted). Proved for all reachable states with printable keys, for every order of the map entries, up to disabled paths; exact for histories that never disable a path nor use an unknown provider or an identifier with a slash."
  },
  {
   "property": "C43",
   "status": "partial",
   "theorems": [
    "C43_default_refuted",
    "C43_collector_partial"
   ],
   "note": "False: the default genesis leaves the season two yield collector empty and InitGenesis panics decoding it, for every codec rejecting the empty string (C43_default_refuted). Proved: with a collector it initialises to a fresh state."
  },
  {
   "property": "C44",
   "status": "partial",
   "theorems": [
    "C44_blocked_refuted",
    "C44_applied_partial",
    "C44_large_partial"
   ],
   "note": "False as stated: five histories after which an authentic higher index is refused or panics (payments of 1 leave supply above the value of the total principal; locks make the staked vault's claim exceed the yield account; a transfer to the yield account; a second hyperlane router; an undecodable recipient). Proved: applied whenever the supply is at most the value of the total principal at the new index, the yield account can pay the claims of vaults, channels and warp account, hyperlane routes are usable and magnitudes are far below 2^256. C44_large_partial: on chains that refuse deliveries to the yield account, increases that gain the users more than two units of principal per past transfer are applied, with no assumption on the books. Missing: smaller increases."
  },
  {
   "property": "C45",
   "status": "proved",
   "theorems": [
    "C45_private",
    "C45_separate",
    "C45_account"
   ],
   "note": "Assumes module account names hash to distinct addresses (DESIGN.md)."
  },
  {
   "property": "C46",
   "status": "proved",
   "theorems": [
    "C46_failed_skipped"
   ],
   "note": "Any history equals the history of its successful messages. Which errors are swallowed is stated through the effects of successful messages (C06, C08, C15, C17, C27)."
  },
  {
   "property": "C47",
   "status": "proved",
   "theorems": [
    "C47_migration",
    "C47_missing"
   ],
   "note": "For all states and version 1 statistics; a missing version 1 item is an error that changes nothing."
  },
  {
   "property": "C48",
   "status": "proved",
   "theorems": [
    "C48_accrual_history",
    "C48_accrual_monotone"
   ],
   "note": "Monotone in all histories; the exact equation under the hypothesis that statistic plus supply stay below 2^256 along the history (beyond it SafeAdd fails and the error may be swallowed by Mint)."
  },
  {
   "property": "C49",
   "status": "proved",
   "theorems": [
    "C49_record",
    "C49_token_record"
   ],
   "note": "Exact effect of index messages; token messages record the same or nothing because Mint swallows a failed update."
  },
  {
   "property": "C50",
   "status": "proved",
   "theorems": [
    "C50_payout",
    "C50_pro_rata"
   ],
   "note": "Complete account of a withdrawal; the result is a computation over the touched positions that mentions no model function."
  },
  {
   "property": "C51",
   "status": "partial",
   "theorems": [
    "C51_withdrawal_refuted",
    "C51_withdrawal_partial"
   ],
   "note": "Refuted: at index 3 a fresh position has a claim of 2 on an empty yield account, and the withdrawal fails. Proved when the yield account covers the yield waiting on the user's position accounts, total flexible principal stayed within 10^18, position accounts are not blocked and amounts are far inside 256 bits."
  },
  {
   "property": "C52",
   "status": "proved",
   "theorems": [
    "C52_issue",
    "C52_redeem"
   ],
   "note": "When a token message also raises the index, the balances are those of the index update followed by the issuance (C62_token); here only the total principal is stated for that case."
  },
  {
   "property": "C53",
   "status": "proved",
   "theorems": [
    "C53_ibc_send",
    "C53_ibc_receive",
    "C53_ibc_refund",
    "C53_warp_send",
    "C53_warp_receive"
   ],
   "note": "`transferred` states balances, principals, holders and everything left alone for an accepted transfer."
  },
  {
   "property": "C54",
   "status": "proved",
   "theorems": [
    "C54_index",
    "C54_account",
    "C54_yield_paid",
    "C54_tokens",
    "C54_rewards",
    "C54_positions",
    "C54_recipients",
    "C54_retries",
    "C54_external",
    "C54_read",
    "C54_settings"
   ],
   "note": "The light client lookup that names an IBC chain is a parameter. C36_pending covers the per-user reward query."
  },
  {
   "property": "C55",
   "status": "proved",
   "theorems": [
    "C55_staked_payout",
    "C55_lock_books"
   ],
   "note": "The parts are read off the positions before and after."
  },
  {
   "property": "C56",
   "status": "proved",
   "theorems": [
    "C56_admin",
    "C56_unknown"
   ],
   "note": "The unknown-message theorem is stated on wire bytes; payloads longer than 65000 bytes are left out."
  },
  {
   "property": "C57",
   "status": "partial",
   "theorems": [
    "C57_covered_refuted",
    "C57_release_refuted",
    "C57_covered_partial",
    "C57_release_partial"
   ],
   "note": "False of the code: a dispatch that fails after the token was written leaves the yield in the collateral and in the retry amount, and the next update adds it again (C57_covered_refuted; C57_release_refuted shows the last holders cannot leave). Proved for all histories in which no dispatch fails half way."
  },
  {
   "property": "C59",
   "status": "proved",
   "theorems": [
    "C59_covered",
    "C59_refund",
    "C59_return"
   ],
   "note": "Refund and return are also shown to succeed, with amounts far inside 256 bits."
  },
  {
   "property": "C58",
   "status": "proved",
   "theorems": [
    "C58_stored",
    "C58_pause"
   ],
   "note": "Principal of single accounts may be negative (finding 10), so it is not part of the invariant."
  },
  {
   "property": "C60",
   "status": "proved",
   "theorems": [
    "C60_kept",
    "C60_claim",
    "C60_transfer",
    "C60_issue"
   ],
   "note": "The yield account itself is excluded from the claim and issuance parts."
  },
  {
   "property": "C61",
   "status": "proved",
   "theorems": [
    "C61_send_back",
    "C61_ibc",
    "C61_warp",
    "C61_redeem",
    "C61_lock"
   ],
   "note": "Each pair is two successful messages at an unchanged index."
  },
  {
   "property": "C62",
   "status": "proved",
   "theorems": [
    "C62_index",
    "C62_token"
   ],
   "note": "After season one the collector is assumed not to be the yield or warp account or an IBC escrow. The principal moved in season one is stated exactly for indices up to 10^18 (a millionfold). C62_token needs the conditions under which an index update is applied (C44), since a failing update inside a token message is ignored."
  },
  {
   "property": "C63",
   "status": "proved",
   "theorems": [
    "C63_touched",
    "C63_tight"
   ],
   "note": "C63_touched: nothing outside the table changes; C63_tight: every entry of the table is needed."
  },
  {
   "property": "C64",
   "status": "partial",
   "theorems": [
    "C64_season_end_refuted",
    "C64_season_end_partial"
   ],
   "note": "False in full: the function swallows the error of a withdrawal and keeps its partial writes (C64_season_end_refuted). Proved when every withdrawal would succeed as a message. Nothing calls the function at this commit."
  },
  {
   "property": "C65",
   "status": "proved",
   "theorems": [
    "C65_frozen",
    "C65_nothing_else"
   ],
   "note": "The upgrade is an environment event (OpEndSeason) that may occur anywhere in a history, so every theorem about reachable states or histories covers chains on which season one ends while positions exist. Finding 18: flexible stakes that exist at that moment are stranded, because no code path releases them."
  },
  {
   "property": "C66",
   "status": "proved",
   "theorems": [
    "C66_schema",
    "C66_keys",
    "C66_store",
    "C66_walk",
    "C66_positions",
    "C66_rewards",
    "C66_recipients",
    "C66_typed"
   ],
   "note": "Links the finite maps of the model to the byte-level store of the collections library (assumed key codecs: DESIGN.md). C66_typed shows that the integer part of storable holds after every typed history; that accounts have different addresses is a hypothesis (collision resistance of the address derivation)."
  },
  {
   "property": "C67",
   "status": "partial",
   "theorems": [
    "C67_same",
    "C67_claim",
    "C67_lock",
    "C67_unlock",
    "C67_positions",
    "C67_reward",
    "C67_index",
    "C67_token",
    "C67_other",
    "C67_transfer",
    "C67_settings",
    "C67_past",
    "C67_vaults",
    "C67_bridge",
    "C67_money_refuted",
    "C67_log_bound",
    "C67_money_partial"
   ],
   "note": "Only the events of this module (Events.v). False for the index by its own events, the supply and the yield: C67_money_refuted (a token message whose index update fails midway, Finding 20); proved for histories without such a message: C67_money_partial. For all histories the index follows from the index events together with the index in token events, and the log never overstates supply or yield (C67_log_bound). Everything else is proved in full."
  },
  {
   "property": "C68",
   "status": "proved",
   "theorems": [
    "C68_claims",
    "C68_transfers",
    "C68_locks",
    "C68_unlocks",
    "C68_skipped_index",
    "C68_claim_timing",
    "C68_holders_order"
   ],
   "note": "The orders compared are those of C68_transfers in which every message succeeds; for claims alone success in one order implies success in all. The vocabulary (executes, apart, without_holders) is at the top of the sections of OrderP.v."
  },
  {
   "property": "C69",
   "status": "proved",
   "theorems": [
    "C69_transfer",
    "C69_redeem",
    "C69_issue",
    "C69_unlock"
   ],
   "note": "Both ways are assumed to succeed: the whole amount can fail where the parts do not, because amount * 10^12 must fit 256 bits. C69_unlock says nothing about the principal of a position that is cut: cutting it twice rounds twice (C33)."
  }
 ]
}
