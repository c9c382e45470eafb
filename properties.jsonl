{"id": "C01", "title": "Linear schedule with start and cliff unlocks", "statement": "For a stream that is neither canceled nor depleted, streamed_amount_of returns 0 before start_time, exactly start_unlock_amount from start_time until a set cliff_time, exactly deposit_amount from end_time on, and in between start_unlock+cliff_unlock plus a share of the rest that lies within the deposit; the call never aborts and the defensive 'streamed > deposited' branch is never taken.", "quantifier": "every stream accepted by a create instruction (all u64 amounts and times) and every clock value", "why_tests_cant": "six u64 parameters and a clock: tests sample a handful of points; overflow and rounding at extreme values are never reached", "anchors": ["programs/lockup/src/utils/lockup_math.rs:get_streamed_amount", "programs/lockup/src/instructions/view/streamed_amount_of.rs:handler"]}
{"id": "C02", "title": "Streamed amount never decreases over time", "statement": "For one unchanged stream, a later call of streamed_amount_of never returns less than an earlier one.", "quantifier": "every accepted stream and every pair of clock values t1 <= t2", "why_tests_cant": "a relation between two arbitrary points in time; tests compare a few fixed times", "anchors": ["programs/lockup/src/utils/lockup_math.rs:get_streamed_amount"]}
{"id": "C03", "title": "Rounding favours the vault and is bounded", "statement": "Between cliff (or start) and end the streamed amount is never above the exact rational line and lags behind it by less than 1 + (deposit - unlocks)/10^18 base units, hence by less than 20 units for any deposit.", "quantifier": "every accepted stream and every clock value", "why_tests_cant": "two nested truncating divisions over 2^64-size operands; the worst case is not at any sampled point", "anchors": ["programs/lockup/src/utils/lockup_math.rs:get_streamed_amount"]}
{"id": "C04", "title": "Create accepts exactly the documented parameters", "statement": "create_with_timestamps_ll passes validation iff deposit > 0, 0 < start < end, (cliff = 0 and cliff unlock = 0) or start < cliff < end, and start unlock + cliff unlock <= deposit (as integers, no wrap-around); otherwise it fails with the error of the first violated requirement.", "quantifier": "all u64 parameter tuples", "why_tests_cant": "boundary and overflow combinations over six 64-bit parameters", "anchors": ["programs/lockup/src/utils/validations.rs:check_create", "programs/lockup/src/lib.rs:create_with_timestamps_ll"]}
{"id": "C05", "title": "Durations variant is the timestamps variant started now", "statement": "create_with_durations_ll behaves exactly like create_with_timestamps_ll with start = current time, cliff = start + cliff_duration (0 if the cliff duration is 0) and end = start + total_duration, and aborts without effect if one of the sums leaves u64.", "quantifier": "all argument tuples, accounts, world states and clock values", "why_tests_cant": "equivalence of two instructions over the whole input space", "anchors": ["programs/lockup/src/instructions/create_with_durations.rs:handler"]}
{"id": "C06", "title": "What a successful create leaves behind", "statement": "A successful create takes exactly deposit_amount from the creator's token account into a fresh vault owned by the new stream, stores exactly the given parameters with zero withdrawn and refunded and both flags clear, mints the single NFT to the recipient's associated account, and leaves every other stream, vault and token balance unchanged.", "quantifier": "all world states and all successful create calls; where an amount is said to arrive in full or a vault balance to be kept: every SPL Token mint and every Token-2022 mint without an extension that interferes with transfers or balances (otherwise exactly what the extension lets through; see C72)", "why_tests_cant": "frame conditions quantify over every other account", "anchors": ["programs/lockup/src/instructions/create_with_timestamps.rs:handler", "programs/lockup/src/state/lockup.rs:StreamData::create"]}
{"id": "C07", "title": "A stream never pays out more than its deposit", "statement": "In every history, for every stream, withdrawn + refunded <= deposited, and all amounts stay within u64; the sum of all tokens ever transferred out of the stream's vault (withdrawals plus refund, counted from events) equals withdrawn + refunded.", "quantifier": "every history of program instructions by arbitrary signers interleaved with arbitrary actions of other programs, with arbitrary clock moves (even backwards); where an amount is said to arrive in full or a vault balance to be kept: every SPL Token mint and every Token-2022 mint without an extension that interferes with transfers or balances (otherwise exactly what the extension lets through; see C72)", "why_tests_cant": "invariant over unbounded histories and adversarial interleavings", "anchors": ["programs/lockup/src/state/lockup.rs:StreamData", "programs/lockup/src/instructions/withdraw.rs:handler", "programs/lockup/src/instructions/cancel.rs:handler"]}
{"id": "C08", "title": "Solvency: every stream is fully backed by its own vault", "statement": "In every history, each stream's vault token account exists, is owned by that stream's address and holds at least deposited - withdrawn - refunded tokens; different streams never share a vault.", "quantifier": "every reachable state, every stream, any interleaving with other programs and the other Sablier program; where an amount is said to arrive in full or a vault balance to be kept: every SPL Token mint and every Token-2022 mint without an extension that interferes with transfers or balances (otherwise exactly what the extension lets through; see C72)", "why_tests_cant": "invariant over unbounded histories", "anchors": ["programs/lockup/src/instructions/create_with_timestamps.rs:handler", "programs/lockup/src/instructions/withdraw.rs:handler", "programs/lockup/src/instructions/cancel.rs:handler"]}
{"id": "C09", "title": "Withdraw pays exactly the requested amount and cannot overdraw", "statement": "A successful withdraw(amount) requires 0 < amount <= withdrawable_amount_of at that moment, increases withdrawn by exactly amount, moves exactly amount from the stream's vault to the withdrawal recipient's associated account, and changes no other token balance and no other stream.", "quantifier": "every reachable state, signer, account list and amount; where an amount is said to arrive in full or a vault balance to be kept: every SPL Token mint and every Token-2022 mint without an extension that interferes with transfers or balances (otherwise exactly what the extension lets through; see C72)", "why_tests_cant": "must hold for every state and amount; frame conditions range over all other accounts", "anchors": ["programs/lockup/src/instructions/withdraw.rs:handler", "programs/lockup/src/utils/validations.rs:check_withdraw"]}
{"id": "C10", "title": "Only the NFT holder can direct a withdrawal elsewhere", "statement": "If withdraw or withdraw_max succeeds then the passed stream recipient's associated account holds the stream NFT, and the tokens go either to that holder's own associated account or the holder signed the transaction.", "quantifier": "every world state, signer set and account list", "why_tests_cant": "adversarial choice of accounts and signers", "anchors": ["programs/lockup/src/instructions/withdraw.rs:Withdraw"]}
{"id": "C11", "title": "withdraw_max empties what is available", "statement": "withdraw_max behaves exactly as withdraw(withdrawable_amount_of); after it succeeds the withdrawable amount at the same instant is 0 and withdrawn equals the streamed amount.", "quantifier": "every state, account list and clock value", "why_tests_cant": "equivalence of instructions over all states", "anchors": ["programs/lockup/src/instructions/withdraw_max.rs:handler"]}
{"id": "C12", "title": "Cancel splits the remaining deposit fairly", "statement": "A successful cancel refunds exactly deposited - streamed(now) to the sender's associated account, keeps exactly streamed(now) - withdrawn for the recipient, and from then on streamed_amount_of stays constant at deposited - refunded at every later time until depletion.", "quantifier": "every reachable state, clock value and account list; where an amount is said to arrive in full or a vault balance to be kept: every SPL Token mint and every Token-2022 mint without an extension that interferes with transfers or balances (otherwise exactly what the extension lets through; see C72)", "why_tests_cant": "relation between two parties' balances for every instant", "anchors": ["programs/lockup/src/instructions/cancel.rs:handler", "programs/lockup/src/state/lockup.rs:StreamData::cancel"]}
{"id": "C13", "title": "Only the sender can cancel or renounce", "statement": "If cancel or renounce succeeds on a stream, the stream's recorded sender signed; the refund can only go to the sender's associated account.", "quantifier": "every world state, signer set and account list", "why_tests_cant": "adversarial choice of accounts and signers", "anchors": ["programs/lockup/src/instructions/cancel.rs:Cancel", "programs/lockup/src/instructions/renounce.rs:Renounce"]}
{"id": "C14", "title": "Losing cancelability is irreversible", "statement": "Once a stream is non-cancelable (created so, renounced, canceled or depleted) no cancel or renounce on it ever succeeds again, it stays non-cancelable, and its refunded amount never changes again.", "quantifier": "every history continuing from such a state", "why_tests_cant": "quantifies over all future histories", "anchors": ["programs/lockup/src/utils/validations.rs:check_cancel", "programs/lockup/src/utils/validations.rs:check_renounce", "programs/lockup/src/state/lockup.rs"]}
{"id": "C15", "title": "A renounced stream follows its schedule to the end", "statement": "After a successful renounce (or for a stream created non-cancelable) nothing the sender or anyone else does changes the streamed amount: at every later time it equals the schedule fixed at creation until the recipient has withdrawn the whole deposit.", "quantifier": "every history after the renounce, with a clock that never goes backwards", "why_tests_cant": "quantifies over all future histories", "anchors": ["programs/lockup/src/instructions/renounce.rs:handler", "programs/lockup/src/state/lockup.rs:StreamData::renounce"]}
{"id": "C16", "title": "Status only moves forward", "statement": "Over time and over any history status_of moves only along Pending -> Streaming -> Settled -> Depleted, or from Pending/Streaming to Canceled or Depleted, and Canceled -> Depleted; Depleted is final.", "quantifier": "every history with a clock that never goes backwards, every pair of moments", "why_tests_cant": "temporal property of unbounded histories", "anchors": ["programs/lockup/src/instructions/view/status_of.rs:handler"]}
{"id": "C17", "title": "Status and amounts agree", "statement": "In every reachable state: Depleted iff withdrawn + refunded = deposited; Canceled implies something was refunded and something is left; Pending implies streamed = 0 and now < start; Streaming implies streamed < deposited; Settled implies streamed = deposited and not everything is withdrawn; Canceled and Depleted streams are non-cancelable.", "quantifier": "every reachable state", "why_tests_cant": "invariant over unbounded histories", "anchors": ["programs/lockup/src/instructions/view/status_of.rs:handler", "programs/lockup/src/state/lockup.rs"]}
{"id": "C18", "title": "Views predict instructions", "statement": "refundable_amount_of returns exactly what a cancel at the same instant would refund, and 0 exactly when cancel would be rejected for the stream's state; withdraw accepts exactly the amounts in 1..withdrawable_amount_of; views fail only on invalid accounts.", "quantifier": "every reachable state and instant; where an amount is said to arrive in full or a vault balance to be kept: every SPL Token mint and every Token-2022 mint without an extension that interferes with transfers or balances (otherwise exactly what the extension lets through; see C72)", "why_tests_cant": "agreement of separate code paths in every state", "anchors": ["programs/lockup/src/utils/lockup_math.rs", "programs/lockup/src/instructions/view/refundable_amount_of.rs", "programs/lockup/src/instructions/view/withdrawable_amount_of.rs"]}
{"id": "C19", "title": "Recipient funds are never stuck", "statement": "In every reachable state with a clock that never went backwards, if the NFT sits in the holder's associated account, something is withdrawable and the token accounts involved are not frozen and payer funds suffice, then withdraw_max (and withdraw of any amount in range) succeeds; no arithmetic abort can occur.", "quantifier": "every reachable state and every eligible call; the token's own rules must let the transfer pass (always so without Token-2022 extensions of the mint or of the two token accounts)", "why_tests_cant": "liveness after arbitrary histories", "anchors": ["programs/lockup/src/instructions/withdraw.rs", "programs/lockup/src/state/lockup.rs:withdraw"]}
{"id": "C20", "title": "Sender can always cancel a cancelable unsettled stream", "statement": "In every reachable state with non-decreasing clock, if the stream is cancelable and streamed < deposited, a cancel signed by the sender with the right accounts succeeds (token accounts not frozen).", "quantifier": "every reachable state and every eligible call; the token's own rules must let the transfer pass (always so without Token-2022 extensions of the mint or of the two token accounts)", "why_tests_cant": "liveness after arbitrary histories", "anchors": ["programs/lockup/src/instructions/cancel.rs"]}
{"id": "C21", "title": "Stream terms are immutable", "statement": "Sender, deposit token, deposit amount, unlock amounts, timestamps, salt and bump of a stream never change after creation and a stream account is never removed.", "quantifier": "every history after creation", "why_tests_cant": "quantifies over all future histories", "anchors": ["programs/lockup/src/state/lockup.rs"]}
{"id": "C22", "title": "Streams are isolated from each other", "statement": "A successful instruction on one stream leaves the data of every other stream and the balance of every other stream's vault unchanged (a vault can only gain if it is itself the destination).", "quantifier": "every world state, instruction and pair of streams", "why_tests_cant": "quantifies over pairs of streams and all calls", "anchors": ["programs/lockup/src/instructions/withdraw.rs", "programs/lockup/src/instructions/cancel.rs", "programs/lockup/src/instructions/renounce.rs"]}
{"id": "C23", "title": "One stream per (sender, salt)", "statement": "create fails if a stream for the same sender and salt was ever created; stream_exists returns true from creation on, forever, and false before.", "quantifier": "every history", "why_tests_cant": "quantifies over histories", "anchors": ["programs/lockup/src/instructions/create_with_timestamps.rs:CreateWithTimestamps", "programs/lockup/src/instructions/view/stream_exists.rs"]}
{"id": "C24", "title": "Exactly one NFT per stream", "statement": "In every reachable state the supply of each stream NFT is at most 1 and it is held by at most one token account; so at most one address is the recipient of a stream at any time.", "quantifier": "every history including arbitrary NFT transfers and burns by holders", "why_tests_cant": "invariant over unbounded histories", "anchors": ["programs/lockup/src/utils/nft.rs:create_stream", "programs/lockup/src/instructions/withdraw.rs:Withdraw"]}
{"id": "C25", "title": "Collection counter counts streams", "statement": "After initialization, the collection data's total_supply equals the number of streams in existence, in every history.", "quantifier": "every history", "why_tests_cant": "invariant over unbounded histories", "anchors": ["programs/lockup/src/state/nft_collection_data.rs", "programs/lockup/src/instructions/create_with_timestamps.rs:handler"]}
{"id": "C26", "title": "Withdrawal schedule does not change entitlement", "statement": "However a recipient splits withdrawals, withdrawn + withdrawable = streamed at every moment, so the total received by time t after withdraw_max is the streamed amount at t, independent of earlier withdrawals.", "quantifier": "every history of withdrawals on a stream", "why_tests_cant": "quantifies over all withdrawal schedules", "anchors": ["programs/lockup/src/utils/lockup_math.rs:get_withdrawable_amount", "programs/lockup/src/state/lockup.rs:withdraw"]}
{"id": "C27", "title": "Only the fee collector takes fees, and only the excess", "statement": "collect_fees succeeds only if the recorded fee collector signed; it moves exactly balance - (rent minimum + 1,000,000 lamports) to the fee recipient, which is positive, and leaves rent minimum + 1,000,000 in the treasury; if there is no excess it fails.", "quantifier": "every world state and call (both programs)", "why_tests_cant": "must hold for every balance and adversarial accounts", "anchors": ["programs/lockup/src/instructions/collect_fees.rs", "programs/merkle_instant/src/instructions/collect_fees.rs"]}
{"id": "C28", "title": "Treasury stays rent-exempt and its settings are immutable", "statement": "initialize succeeds at most once per program; afterwards fee collector, oracle program and feed never change, and the treasury's lamports never fall below the rent minimum.", "quantifier": "every history (both programs)", "why_tests_cant": "invariant over unbounded histories", "anchors": ["programs/lockup/src/instructions/initialize.rs", "programs/lockup/src/state/treasury.rs", "programs/merkle_instant/src/instructions/initialize.rs", "programs/merkle_instant/src/state/treasury.rs"]}
{"id": "C29", "title": "USD fee conversion", "statement": "With a positive oracle price p (below 2^64) with d decimals, not from the future and at most 24 hours old, the fee in lamports for fee_usd (8 decimals) is floor(fee_usd * 10^(d+1) / p) whenever that fits; it is 0 if the USD fee is 0, the oracle's reply cannot be decoded, the price is not positive, or the round is from the future or older than 86400 seconds.", "quantifier": "all fee settings, oracle rounds, decimals and clock values in range (both programs)", "why_tests_cant": "two code paths (8 decimals and other) with fixed-width arithmetic over the whole oracle range", "anchors": ["programs/lockup/src/utils/fee_calculation.rs", "programs/merkle_instant/src/utils/fee_calculation.rs"]}
{"id": "C30", "title": "Fee conversion never blocks a withdrawal or claim", "statement": "Whatever the oracle returns, and even if calling it fails, computing the fee does not abort the instruction. (True for the deployed USD fee of 0; false for positive fee settings: refuted with witnesses, and the aborting replies characterised exactly.)", "quantifier": "all oracle answers, decimals, timestamps and fee settings", "why_tests_cant": "needs exhaustive search of the oracle's value space", "anchors": ["programs/lockup/src/utils/fee_calculation.rs:convert_usd_fee_to_lamports", "programs/lockup/src/utils/constants.rs:WITHDRAWAL_FEE_USD"]}
{"id": "C31", "title": "The fee charged is the fee quoted", "statement": "withdraw and claim charge the signer exactly the lamports that withdrawal_fee_in_lamports / claim_fee_in_lamports would return at that instant (0 at the deployed setting), report that number in their event, and only accept the oracle accounts recorded at initialization.", "quantifier": "every world state and call", "why_tests_cant": "agreement of separate code paths in every state", "anchors": ["programs/lockup/src/instructions/withdraw.rs:charge_withdrawal_fee", "programs/lockup/src/instructions/view/withdrawal_fee_in_lamports.rs", "programs/merkle_instant/src/instructions/claim.rs:charge_claim_fee"]}
{"id": "C32", "title": "No tokens or lamports are created or destroyed", "statement": "Every successful instruction conserves the sum of balances of every fungible token and the sum of lamports; the only minted token is the stream or collection NFT. (Lamports that back wrapped SOL are counted as tokens.)", "quantifier": "every world state and successful call (both programs); where an amount is said to arrive in full or a vault balance to be kept: every SPL Token mint and every Token-2022 mint without an extension that interferes with transfers or balances (otherwise exactly what the extension lets through; see C72)", "why_tests_cant": "quantifies over all accounts", "anchors": ["programs/lockup/src/instructions", "programs/merkle_instant/src/instructions"]}
{"id": "C33", "title": "Claims only inside the campaign window", "statement": "claim succeeds only if start_time <= now and (expiration = 0 or now < expiration); has_campaign_started and has_expired report exactly these conditions.", "quantifier": "every campaign, clock value and call", "why_tests_cant": "boundaries over all u64 times", "anchors": ["programs/merkle_instant/src/utils/validations.rs:check_claim", "programs/merkle_instant/src/utils/validations.rs:has_expired", "programs/merkle_instant/src/utils/validations.rs:has_campaign_started"]}
{"id": "C34", "title": "Every recipient in the tree can prove it", "statement": "For every Merkle tree of (index, recipient, amount) entries built with sorted pairs and double-hashed leaves, the sibling path of each entry is accepted against the tree's root.", "quantifier": "all trees of any shape and size, all entries, any hash function; the token's own rules must let the transfer pass (always so without Token-2022 extensions of the mint or of the two token accounts)", "why_tests_cant": "induction over unbounded trees", "anchors": ["programs/merkle_instant/src/utils/validations.rs:check_claim"]}
{"id": "C35", "title": "Nobody outside the tree can claim", "statement": "If a proof is accepted against the root of a tree for (index, recipient, amount), then that triple is an entry of the tree or the proof exhibits a hash collision; in particular inner nodes cannot be passed off as leaves and proofs of the wrong length are rejected.", "quantifier": "all trees, all claimed triples, all proofs of any length, any 32-byte hash function", "why_tests_cant": "security claim over all adversarial proofs", "anchors": ["programs/merkle_instant/src/utils/validations.rs:check_claim"]}
{"id": "C36", "title": "Each index is paid at most once", "statement": "For each campaign and index at most one claim ever succeeds; has_claimed is true exactly from that claim on.", "quantifier": "every history", "why_tests_cant": "quantifies over unbounded histories", "anchors": ["programs/merkle_instant/src/instructions/claim.rs:Claim", "programs/merkle_instant/src/instructions/view/has_claimed.rs"]}
{"id": "C37", "title": "A claim pays the recipient exactly the proven amount", "statement": "A successful claim moves exactly amount from the campaign's vault to the recipient's associated account, whoever signs; no other token balance, campaign or receipt changes.", "quantifier": "every world state and call; where an amount is said to arrive in full or a vault balance to be kept: every SPL Token mint and every Token-2022 mint without an extension that interferes with transfers or balances (otherwise exactly what the extension lets through; see C72)", "why_tests_cant": "frame conditions over all accounts", "anchors": ["programs/merkle_instant/src/instructions/claim.rs:handler"]}
{"id": "C38", "title": "Total claims are bounded by the tree", "statement": "For a campaign whose root is that of a tree, in every history the total paid by its claims is at most the sum of the tree's amounts over the claimed indices, hence at most the tree's total when indices are distinct (unless a hash collision is exhibited).", "quantifier": "every history and every tree", "why_tests_cant": "combines induction over histories and over trees", "anchors": ["programs/merkle_instant/src/instructions/claim.rs", "programs/merkle_instant/src/utils/validations.rs"]}
{"id": "C39", "title": "First claim time is written once", "statement": "first_claim_time is 0 until the first successful claim, which sets it to the then-current time; no later instruction changes it.", "quantifier": "every history with a positive clock", "why_tests_cant": "quantifies over unbounded histories", "anchors": ["programs/merkle_instant/src/state/campaign.rs:Campaign::claim"]}
{"id": "C40", "title": "Clawback only by the creator and only when allowed", "statement": "clawback succeeds only if the campaign creator signed and no claim was made yet, or now <= first claim time + 7 days, or the campaign expired; it moves exactly amount from the vault to the chosen recipient. In those cases, with sufficient vault balance, it does succeed.", "quantifier": "every reachable state, signer set and amount; where an amount is said to arrive in full or a vault balance to be kept: every SPL Token mint and every Token-2022 mint without an extension that interferes with transfers or balances (otherwise exactly what the extension lets through; see C72)", "why_tests_cant": "boundaries over all u64 times, adversarial accounts", "anchors": ["programs/merkle_instant/src/instructions/clawback.rs", "programs/merkle_instant/src/utils/validations.rs:check_clawback"]}
{"id": "C41", "title": "Recipients are protected after the grace period", "statement": "Once more than 7 days have passed since the first claim, then until expiration (forever if none is set) the campaign vault only decreases through claims carrying a valid proof.", "quantifier": "every history in that period; where an amount is said to arrive in full or a vault balance to be kept: every SPL Token mint and every Token-2022 mint without an extension that interferes with transfers or balances (otherwise exactly what the extension lets through; see C72)", "why_tests_cant": "quantifies over unbounded histories", "anchors": ["programs/merkle_instant/src/utils/validations.rs:check_clawback", "programs/merkle_instant/src/instructions/clawback.rs"]}
{"id": "C42", "title": "has_grace_period_passed reports the grace period", "statement": "has_grace_period_passed returns true iff a claim was made and more than 7 days have passed since the first claim. (Refuted: the instruction passes the expiration time instead of the first claim time.)", "quantifier": "every campaign and clock value", "why_tests_cant": "no test covers this view; the wrong argument has the right type", "anchors": ["programs/merkle_instant/src/instructions/view/has_grace_period_passed.rs:handler", "programs/merkle_instant/src/lib.rs:has_grace_period_passed"]}
{"id": "C43", "title": "Campaign terms are immutable", "statement": "Creator, token, root, start, expiration, name, IPFS CID and bump of a campaign never change and the campaign is never removed.", "quantifier": "every history", "why_tests_cant": "quantifies over unbounded histories", "anchors": ["programs/merkle_instant/src/state/campaign.rs"]}
{"id": "C44", "title": "Account addresses are unambiguous", "statement": "Distinct identifying data never give the same derivation input: for stream NFT mint, stream data, campaign, claim receipt, treasury and collection accounts, equal concatenated seeds imply the same account kind and the same parameters, although one campaign seed (the name) has variable length.", "quantifier": "all parameter values, all names up to 32 bytes", "why_tests_cant": "injectivity over an infinite domain", "anchors": ["programs/lockup/src/utils/constants.rs:seeds", "programs/merkle_instant/src/utils/constants.rs:seeds", "programs/merkle_instant/src/instructions/create_campaign.rs:CreateCampaign"]}
{"id": "C45", "title": "Stored accounts round-trip and fit their space", "statement": "Every stream, treasury, collection and receipt record serializes within its allocated space and deserializes to itself; a campaign does so iff name and IPFS CID together take at most 91 bytes, and create_campaign accepts exactly those with a name of at most 32 bytes.", "quantifier": "all field values and all strings", "why_tests_cant": "round-trip over an infinite domain", "anchors": ["programs/lockup/src/state", "programs/merkle_instant/src/state", "programs/merkle_instant/src/utils/constants.rs"]}
{"id": "C46", "title": "Campaigns that can never be claimed can always be refunded", "statement": "If start_time >= expiration_time > 0 then no claim ever succeeds, and the creator can always claw back whatever is in the vault.", "quantifier": "every history of such a campaign", "why_tests_cant": "quantifies over unbounded histories", "anchors": ["programs/merkle_instant/src/utils/validations.rs", "SECURITY.md"]}
{"id": "C47", "title": "A fresh salt or campaign can always be created", "statement": "With valid parameters, enough funds and an unused (sender, salt) or campaign identity, create succeeds. (Refuted: anyone can pre-create the vault's associated token account, whose address is predictable, and block the creation; true when that account does not exist yet.)", "quantifier": "every reachable state; the token's own rules must let the transfer pass (always so without Token-2022 extensions of the mint or of the two token accounts); the token program chosen for the NFT must be one that Metaplex accepts (otherwise every create fails)", "why_tests_cant": "needs an adversarial interleaving before the call", "anchors": ["programs/lockup/src/instructions/create_with_timestamps.rs:CreateWithTimestamps.stream_data_ata", "programs/merkle_instant/src/instructions/create_campaign.rs:CreateCampaign.campaign_ata"]}
{"id": "C48", "title": "The two programs do not interfere", "statement": "No Lockup instruction changes a campaign, a receipt, the Merkle treasury's settings or decreases a campaign vault, and no Merkle Instant instruction changes a stream, the collection counter or decreases a stream vault.", "quantifier": "every world state and successful call", "why_tests_cant": "quantifies over all accounts and calls", "anchors": ["programs/lockup/src/lib.rs", "programs/merkle_instant/src/lib.rs"]}
{"id": "C49", "title": "NFT names are well-formed", "statement": "For every mint key the NFT name is built without a slicing abort and is exactly 32 bytes long, within the metadata limit.", "quantifier": "all 32-byte keys", "why_tests_cant": "keys with many leading zero bytes are never sampled", "anchors": ["programs/lockup/src/utils/nft.rs:create_stream"]}
{"id": "C50", "title": "Instruction data is unambiguous", "statement": "The bytes a client sends for an instruction are decoded to exactly that instruction with exactly those arguments, whatever bytes follow; conversely any data that an instruction is run on is the encoding of that instruction with arguments in the range of their declared types (u32, u64, u128, 32-byte keys and hashes, UTF-8 strings). No two different instructions or argument lists share an encoding.", "quantifier": "all instructions of both programs, views included, all argument values, all byte strings", "why_tests_cant": "The space of byte strings and argument values is infinite; a clash of discriminators or an ambiguous variable-length encoding would only show on particular inputs.", "anchors": ["programs/lockup/src/lib.rs", "programs/merkle_instant/src/lib.rs", "programs/merkle_instant/src/state/campaign.rs"]}
{"id": "C51", "title": "Nobody loses tokens or SOL without having signed", "statement": "When an instruction of either program succeeds, every token account keeps its owner, mint, program and frozen flag, and its balance falls only if its owner signed or it is the vault of a stream (Lockup) or campaign (Merkle Instant); existing mints are unchanged; and an account loses lamports only if it signed, or it is the program's treasury and the registered fee collector signed a fee collection.", "quantifier": "all instructions with all arguments and account lists, all signer sets without program-derived addresses, all worlds (reachable or not)", "why_tests_cant": "A confused-deputy bug shows only with one unforeseen combination of accounts; tests try the accounts their author thought of.", "anchors": ["programs/lockup/src/instructions", "programs/merkle_instant/src/instructions", "programs/lockup/src/utils/transfer_helper.rs", "programs/merkle_instant/src/utils/transfer_helper.rs"]}
{"id": "C52", "title": "All streams together are covered", "statement": "At every moment and for every token, the sum over all streams of (deposited - withdrawn - refunded) is at most what the token accounts owned by stream accounts hold together, which is at most the sum of all balances of that token; no stream's outstanding amount is negative.", "quantifier": "all reachable worlds, any number of streams, all tokens; where an amount is said to arrive in full or a vault balance to be kept: every SPL Token mint and every Token-2022 mint without an extension that interferes with transfers or balances (otherwise exactly what the extension lets through; see C72)", "why_tests_cant": "A double-counted vault shows only when many streams of one token exist; the sum ranges over all of them after any history.", "anchors": ["programs/lockup/src/instructions/create_with_timestamps.rs", "programs/lockup/src/instructions/withdraw.rs", "programs/lockup/src/instructions/cancel.rs", "programs/lockup/src/state/lockup.rs"]}
{"id": "C53", "title": "Cancel and withdraw commute", "statement": "If, at one instant, a cancel and a withdrawal on one stream are accepted in both orders, the resulting account data is the same in both orders: the recipient is paid the same amount, the sender refunded the same amount and the stream record is equal. Neither party gains by going first. The withdraw events are equal, and the cancel events report the same refund.", "quantifier": "all reachable worlds, all streams, amounts, accounts and signers; where an amount is said to arrive in full or a vault balance to be kept: every SPL Token mint and every Token-2022 mint without an extension that interferes with transfers or balances (otherwise exactly what the extension lets through; see C72)", "why_tests_cant": "Front-running gains show only for particular amounts and times around a race; all of them are covered.", "anchors": ["programs/lockup/src/instructions/cancel.rs", "programs/lockup/src/instructions/withdraw.rs", "programs/lockup/src/state/lockup.rs"]}
{"id": "C54", "title": "The size of withdrawals does not matter", "statement": "If a withdrawal of some amount is accepted then so is any smaller positive amount. Two withdrawals at one instant have the same effect on all account data as one withdrawal of the sum, except that the fee is charged twice; withdrawing part and then the maximum has the same effect as withdrawing the maximum.", "quantifier": "all reachable worlds, streams, positive amounts, accounts and signers; where an amount is said to arrive in full or a vault balance to be kept: every SPL Token mint and every Token-2022 mint without an extension that interferes with transfers or balances (otherwise exactly what the extension lets through; see C72)", "why_tests_cant": "Rounding or bookkeeping drift shows only for some splits of some amounts.", "anchors": ["programs/lockup/src/instructions/withdraw.rs", "programs/lockup/src/instructions/withdraw_max.rs", "programs/lockup/src/state/lockup.rs"]}
{"id": "C57", "title": "Every deposited token is accounted for at every moment", "statement": "While a stream is cancelable, withdrawn + withdrawable + refundable = deposited and nothing is refunded; once it is canceled or past its end, withdrawn + withdrawable + refunded = deposited and nothing is refundable; a stream that is not cancelable has nothing refundable. While the stream is left alone, time only moves tokens from refundable to withdrawable. A withdrawal lowers the withdrawable amount by its amount and leaves the streamed and refundable amounts; cancel and renounce leave the streamed and withdrawable amounts and make nothing refundable.", "quantifier": "all reachable worlds (with a clock that does not run backwards for the first two sentences), all streams and all instants", "why_tests_cant": "The identities must hold at every second of every schedule and after every history.", "anchors": ["programs/lockup/src/utils/lockup_math.rs", "programs/lockup/src/instructions/view/refundable_amount_of.rs", "programs/lockup/src/instructions/view/withdrawable_amount_of.rs", "programs/lockup/src/instructions/view/streamed_amount_of.rs"]}
{"id": "C56", "title": "The event log tells the recorded state of every stream, campaign and receipt", "statement": "Reading only the events emitted so far: an address holds a stream iff the events naming it begin with exactly one CreateLockupLinearStream event, which carries the stream's salt, token and NFT; the stream's recorded withdrawn and refunded amounts are the sums of the amounts in its Withdraw and Cancel events; it is recorded canceled iff there is one Cancel event, and there is at most one Renounce event and none while it is cancelable; all its events name its token. An address holds a campaign iff its events begin with one CreateCampaign event carrying all the recorded terms, followed only by claims and by clawbacks of its creator, and a recorded first claim is in the log. A claim receipt exists at an address iff exactly one Claim event names it.", "quantifier": "every history of both programs with arbitrary other activity, every address", "why_tests_cant": "It relates the whole event log to the whole account state after any number of interleaved instructions; an indexer that reconstructs state relies on it for all histories.", "anchors": ["programs/lockup/src/utils/events.rs", "programs/merkle_instant/src/utils/events.rs", "programs/lockup/src/state/lockup.rs: StreamData", "programs/merkle_instant/src/state/campaign.rs: Campaign"]}
{"id": "C55", "title": "A campaign that covers its unclaimed entries keeps covering them, and every unclaimed entry stays claimable", "statement": "A campaign's vault only loses what Claim and Clawback events report. Hence, if the vault holds at least the sum of the tree's unclaimed entries and the creator takes nothing back (which after seven days from the first claim and before expiration is not an assumption but a consequence), it still holds at least that sum after any later activity of anyone, unless a claim exhibited a hash collision; and anyone who brings the accounts and lamports a claim needs can then claim any unclaimed entry in the campaign's window.", "quantifier": "every reachable state, every tree of any shape and size, every later history; where an amount is said to arrive in full or a vault balance to be kept: every SPL Token mint and every Token-2022 mint without an extension that interferes with transfers or balances (otherwise exactly what the extension lets through; see C72); the receiving token account must not have a guard of its own (required memo)", "why_tests_cant": "It is a liveness guarantee for every remaining recipient after arbitrary interleavings of claims and unrelated activity, for trees of any size.", "anchors": ["programs/merkle_instant/src/instructions/claim.rs: handler", "programs/merkle_instant/src/instructions/clawback.rs: handler", "programs/merkle_instant/src/utils/validations.rs: check_claim, check_clawback"]}
{"id": "C61", "title": "A program error code tells the reason of the failure", "statement": "The 15 Lockup and 5 Merkle Instant error codes are distinct, and each is a truthful diagnosis: when cancel, renounce, withdraw, withdraw_max, claim or clawback fails with one of the program's own errors, the stream or campaign (as shown by the views, at that time) violates exactly the requirement that the error names, and satisfies all requirements checked before it; conversely, whenever a requirement is violated the instruction fails, with the error of the first violated one unless it fails outside the programs' own checks. No instruction returns an error documented for another one.", "quantifier": "every reachable state, every signer set, every account list, every argument, every clock value", "why_tests_cant": "The test suite triggers one state per error; which of several violated requirements is reported, and that no other path returns the same code, ranges over all states and inputs.", "anchors": ["programs/lockup/src/utils/errors.rs:ErrorCode", "programs/lockup/src/utils/validations.rs", "programs/merkle_instant/src/utils/errors.rs:ErrorCode", "programs/merkle_instant/src/utils/validations.rs"]}
{"id": "C60", "title": "Logs and return data can be read back exactly", "statement": "Every event logged by a successful instruction, decoded from its bytes as the IDL says (8-byte discriminator, fields in order), is exactly that event; no other bytes decode to it, and no two event types of a program can be confused. Every successful view returns data that the runtime accepts (at most 1024 bytes) and from which a client reads exactly the value of the view.", "quantifier": "every instruction, every reachable state, every event, every byte string, every view", "why_tests_cant": "Decoding is correct for all field values and all following bytes, strings of any length and content; a test decodes a handful of logs.", "anchors": ["programs/lockup/src/utils/events.rs", "programs/merkle_instant/src/utils/events.rs", "programs/lockup/src/instructions/view/status_of.rs:StreamStatus", "programs/lockup/src/lib.rs", "programs/merkle_instant/src/lib.rs"]}
{"id": "C62", "title": "Instructions change only accounts they declare writable", "statement": "A successful instruction of either program changes the data and the lamport balance of no account outside the list its interface marks writable (mut, init, init_if_needed): in particular clawback never modifies the campaign record, renounce nothing but the stream record, and mints of deposited or airdropped tokens, recipients, senders and collectors passed as read-only accounts are never touched. So the runtime never rejects one of these instructions for modifying a read-only account, and a wallet's preview of writable accounts is complete.", "quantifier": "every instruction of both programs, every state, every signer set, every account list (including repeated addresses), every argument", "why_tests_cant": "A test sees one account list and compares the accounts it thought of; the claim is about every other account in the ledger and every aliasing of the inputs.", "anchors": ["programs/lockup/src/instructions/cancel.rs:#[account(mut)]", "programs/lockup/src/instructions/collect_fees.rs:#[account(mut)]", "programs/lockup/src/instructions/create_with_durations.rs:#[account(mut)]", "programs/lockup/src/instructions/create_with_timestamps.rs:#[account(mut)]", "programs/lockup/src/instructions/initialize.rs:#[account(mut)]", "programs/lockup/src/instructions/renounce.rs:#[account(mut)]", "programs/lockup/src/instructions/withdraw.rs:#[account(mut)]", "programs/lockup/src/instructions/withdraw_max.rs:#[account(mut)]", "programs/merkle_instant/src/instructions/claim.rs:#[account(mut)]", "programs/merkle_instant/src/instructions/clawback.rs:#[account(mut)]", "programs/merkle_instant/src/instructions/collect_fees.rs:#[account(mut)]", "programs/merkle_instant/src/instructions/create_campaign.rs:#[account(mut)]", "programs/merkle_instant/src/instructions/initialize.rs:#[account(mut)]"]}
{"id": "C58", "title": "Stream creation opens with initialize and stays open", "statement": "Before initialize no stream exists and every create fails. After initialize has run once - whoever ran it, whatever happened before or after: any number of streams, cancellations, withdrawals, fee collections, campaigns - create_with_timestamps succeeds for every caller who brings valid terms, fresh accounts at the derived addresses, the tokens and the rent; no action of anybody can put the shared collection accounts into a state that blocks creation, until 2^64-1 streams exist.", "quantifier": "every history of both programs and of everybody else (subject to Metaplex's authority rules for the collection NFT), every creator, every valid argument; the token's own rules must let the transfer pass (always so without Token-2022 extensions of the mint or of the two token accounts); the token program chosen for the NFT must be one that Metaplex accepts", "why_tests_cant": "A permanent denial of service would come from some sequence of calls leaving the shared collection account in a bad state; tests try a few sequences.", "anchors": ["programs/lockup/src/instructions/initialize.rs", "programs/lockup/src/instructions/create_with_timestamps.rs", "programs/lockup/src/utils/nft.rs", "programs/lockup/src/state/nft_collection_data.rs"]}
{"id": "C59", "title": "Initialization belongs to the first caller, cannot be blocked, and is final", "statement": "As long as a program has not been initialized, initialize succeeds for every signer who passes the derived accounts and holds the rent, whatever others did before (including sending lamports to the derived addresses); the fee collector and oracle it names are what the treasury shows in every later state, and every further initialize fails. In particular the settings are not reserved to the deployer: a stranger who calls first decides them for good.", "quantifier": "every history without a previous initialize, every caller, every choice of fee collector, oracle program and feed, every later state; the token program chosen for the NFT must be one that Metaplex accepts", "why_tests_cant": "Blocking or repeating initialization would take some adversarial history before or after it; tests initialize once on a fresh ledger.", "anchors": ["programs/lockup/src/instructions/initialize.rs", "programs/lockup/src/utils/nft.rs:initialize_collection", "programs/lockup/src/state/treasury.rs", "programs/merkle_instant/src/instructions/initialize.rs"]}
{"id": "C63", "title": "Instructions see only their accounts, and independent instructions commute", "statement": "The outcome of an instruction of either program (success or failure, error code, events, resulting contents of its accounts) depends only on the clock and on the accounts passed to it, never on any other account. Therefore, if two instructions, of the same or of different programs, each succeed in a state and neither changes an account passed to the other (in particular if neither declares an account of the other writable), they succeed in either order, with the same events, and end in the same state: the order in which the validators schedule unrelated streams, campaigns and collections is not observable.", "quantifier": "every pair of instructions of the two programs, every state, all signers, accounts and arguments, both schedules", "why_tests_cant": "Scheduling of concurrent transactions is not controlled by a test, and the claim ranges over all pairs of instructions and all states of every account that was not passed.", "anchors": ["programs/lockup/src/lib.rs", "programs/merkle_instant/src/lib.rs", "programs/lockup/src/instructions/cancel.rs", "programs/lockup/src/instructions/collect_fees.rs", "programs/lockup/src/instructions/create_with_durations.rs", "programs/lockup/src/instructions/create_with_timestamps.rs", "programs/lockup/src/instructions/initialize.rs", "programs/lockup/src/instructions/renounce.rs", "programs/lockup/src/instructions/withdraw.rs", "programs/lockup/src/instructions/withdraw_max.rs", "programs/merkle_instant/src/instructions/claim.rs", "programs/merkle_instant/src/instructions/clawback.rs", "programs/merkle_instant/src/instructions/collect_fees.rs", "programs/merkle_instant/src/instructions/create_campaign.rs", "programs/merkle_instant/src/instructions/initialize.rs"]}
{"id": "C64", "title": "Burning the NFT gives up the payouts for good, and nothing else", "statement": "The supply of a stream's NFT never grows. Once it has been burned, no withdraw or withdraw_max on that stream ever succeeds again, whoever signs and whatever destination is asked for (unless two different inputs of the address hash collide); the withdrawn amount stays what it was and the vault keeps at least the deposit minus what was withdrawn and refunded. The sender's right to cancel and the refund are unaffected.", "quantifier": "every reachable state in which a stream's NFT has supply 0, every later history, every caller and destination; where an amount is said to arrive in full or a vault balance to be kept: every SPL Token mint and every Token-2022 mint without an extension that interferes with transfers or balances (otherwise exactly what the extension lets through; see C72)", "why_tests_cant": "The claim is about everything that can happen afterwards, including other programs' instructions on the NFT mint; a test can only try a few withdrawals after a burn.", "anchors": ["programs/lockup/src/instructions/withdraw.rs:Withdraw.recipient_stream_nft_ata", "programs/lockup/src/utils/nft.rs:create_stream", "programs/lockup/src/instructions/cancel.rs"]}
{"id": "C65", "title": "Payouts commute", "statement": "Claims (also from the same campaign), withdrawals from different streams and cancellations can be executed in any order: if a batch of them succeeds in one order, it succeeds in every order, every instruction emits the same event and the final balances, lamports and account data are the same. They may share payer, fee treasury, mint, campaign, vault, receiver and the receiver's token account (if that exists already; otherwise whoever is first pays its rent).", "quantifier": "every world, every batch of claim, withdraw, withdraw_max and cancel instructions by wallets to wallets that are not of the same stream, every permutation of it", "why_tests_cant": "The number of orders is factorial in the size of the batch and the shared accounts (treasury lamports, campaign's first claim time, vault balance, payer lamports) are what couples them; a test runs one order.", "anchors": ["programs/merkle_instant/src/instructions/claim.rs:handler", "programs/merkle_instant/src/state/campaign.rs:claim", "programs/lockup/src/instructions/withdraw.rs:handler", "programs/lockup/src/instructions/withdraw_max.rs:handler", "programs/lockup/src/instructions/cancel.rs:handler"]}
{"id": "C66", "title": "Every instruction has one exact bill", "statement": "An accepted instruction changes the lamports of every account by exactly its bill: the payer pays the rent of each account that the instruction creates and that does not exist yet (topped up from what the address already holds), for the metadata account of a new NFT instead its whole rent and Metaplex's fee (whatever the address already holds), plus the fee that the fee view quotes in the same state, which goes to the program's treasury; collect_fees moves what the treasury holds above its rent minimum and 0.001 SOL to the named recipient; no other account changes. So the payer loses exactly fee, rents and Metaplex's fee, nothing hidden. (Lamports that back wrapped SOL move together with the tokens and are counted as tokens.)", "quantifier": "every state, every instruction of both programs with any accounts, arguments and signers, every account of the chain", "why_tests_cant": "A test compares a few balances before and after one call; the property is about all accounts, all combinations of existing and missing accounts and all prices.", "anchors": ["programs/lockup/src/instructions/withdraw.rs:Withdraw", "programs/lockup/src/instructions/create_with_timestamps.rs:CreateWithTimestamps", "programs/merkle_instant/src/instructions/claim.rs:Claim", "programs/merkle_instant/src/instructions/create_campaign.rs:CreateCampaign", "programs/lockup/src/utils/fee_calculation.rs:convert_usd_fee_to_lamports"]}
{"id": "C67", "title": "The programs' accounts live for ever and their rent is locked", "statement": "A stream, campaign, receipt, treasury or collection account, once created, is there in every later state, of the same kind and size, and holds at least the rent minimum for its size; the lamports of all but the treasuries never decrease.", "quantifier": "every reachable state and every later state, through all instructions of both programs and of everybody else", "why_tests_cant": "It is about every continuation of every history.", "anchors": ["programs/lockup/src/state/lockup.rs:StreamData", "programs/lockup/src/state/treasury.rs:Treasury", "programs/merkle_instant/src/state/campaign.rs:Campaign", "programs/merkle_instant/src/state/claim_receipt.rs:ClaimReceipt", "programs/lockup/src/instructions/collect_fees.rs:handler"]}
{"id": "C68", "title": "What happens once cannot be replayed", "statement": "If an initialize, a creation of a stream or campaign, a renouncement, a cancellation or a claim was accepted once, the same instruction is rejected in every later state, whoever signs it; so it occurs at most once in every history. (Therefore whoever first creates a stream for a sender and salt, and that need not be the sender, uses up the pair.)", "quantifier": "every reachable state, every one-shot instruction accepted in it, every later state and every signer list", "why_tests_cant": "A test replays at once; the property is about every later state.", "anchors": ["programs/lockup/src/lib.rs", "programs/merkle_instant/src/lib.rs", "programs/lockup/src/utils/validations.rs:check_cancel", "programs/lockup/src/utils/validations.rs:check_renounce", "programs/merkle_instant/src/instructions/claim.rs:Claim"]}
{"id": "C69", "title": "Claiming opens with the initialization and stays open", "statement": "Before Merkle Instant is initialized no claim and no fee collection succeeds and there is no receipt. After it, with the treasury, oracle program and feed given to initialize, the treasury never stands in the way: in every later state the quoted fee is the conversion of the dollar fee, and every entry of the tree that is unclaimed, in the window and covered by the vault can be claimed by whoever pays.", "quantifier": "every history of both programs, every tree, entry, proof and claimer; the token's own rules must let the transfer pass (always so without Token-2022 extensions of the mint or of the two token accounts)", "why_tests_cant": "It is a liveness statement over all histories.", "anchors": ["programs/merkle_instant/src/instructions/initialize.rs:handler", "programs/merkle_instant/src/instructions/claim.rs:handler", "programs/merkle_instant/src/instructions/view/claim_fee_in_lamports.rs:handler"]}
{"id": "C70", "title": "Lamport amounts never underflow or overflow", "statement": "If no account holds a negative amount of lamports and all lamports together fit in a u64 (as the runtime guarantees), then after every accepted instruction this still holds, and at every transfer of lamports on the way the receiver's new balance fits in a u64, so the overflow check of the runtime never aborts an instruction.", "quantifier": "every state, every instruction of both programs, every account, every history in which everybody else keeps the ledger in order", "why_tests_cant": "Ranges over all balances and all accounts.", "anchors": ["programs/lockup/src/instructions/collect_fees.rs:handler", "programs/merkle_instant/src/instructions/collect_fees.rs:handler", "programs/lockup/src/utils/fee_calculation.rs", "programs/lockup/src/instructions/withdraw.rs:handler"]}
{"id": "C71", "title": "Only the payer's own account can be left below its rent minimum", "statement": "After an accepted instruction every account except one is rent-safe: its lamports are unchanged, or it existed and received lamports, or it was created and holds its rent minimum, or it is the treasury that was just emptied and keeps its rent plus 0.001 SOL. The one exception is the payer (for collect_fees: the account fees are sent to). So the runtime's check that no account ends between zero and its rent minimum can only be tripped by the caller's own choice.", "quantifier": "every state, every accepted instruction of both programs, every account", "why_tests_cant": "Ranges over all accounts, balances and combinations of existing and missing accounts.", "anchors": ["programs/lockup/src/instructions/collect_fees.rs:safe_collectible_amount", "programs/merkle_instant/src/instructions/collect_fees.rs:safe_collectible_amount", "programs/lockup/src/instructions/withdraw.rs:handler", "programs/merkle_instant/src/instructions/claim.rs:handler"]}
{"id": "C72", "title": "Tokens with transfer fees or hostile extensions: the programs never take more than they report, and never pay what is not there", "statement": "Whatever the extensions of a Token-2022 mint do to transfers (withhold a fee, refuse): no instruction of either program takes more out of a token account owned by a stream or campaign than the withdrawals, refunds, claims and clawbacks its events report; every payout is covered by the vault at that moment, with no partial payouts; no instruction makes tokens out of nothing (the sum of all balances of a token grows only by minted NFTs). The records however keep the nominal deposit, so (finding) a stream of a fee-on-transfer token is underfunded from the start: the last part of it cannot be withdrawn and withdraw_max is refused once more is due than the vault holds.", "quantifier": "every reachable state, every instruction of both programs, every behaviour of the token's extensions; the finding is an exhibited history", "why_tests_cant": "tests use one or two fixed mints; the claim ranges over every token rule and every state", "anchors": ["programs/lockup/src/utils/transfer_helper.rs:transfer_tokens", "programs/merkle_instant/src/utils/transfer_helper.rs:transfer_tokens", "programs/lockup/src/instructions/create_with_timestamps.rs:handler", "programs/lockup/src/instructions/withdraw.rs:handler", "programs/lockup/src/instructions/cancel.rs:handler", "programs/merkle_instant/src/instructions/claim.rs:handler", "programs/merkle_instant/src/instructions/clawback.rs:handler", "SECURITY.md"]}
{"id": "C73", "title": "No operation of any other program reaches the escrowed tokens", "statement": "Starting from an empty chain, let anybody run any sequence of the token programs' operations (create mints and accounts, transfer, approve, revoke, mint, burn, freeze, change owners and authorities, close, sync), of the System, Associated Token and Metaplex programs and of unrelated programs, mixed with the instructions of the two programs. Then nothing outside the two programs writes, creates or drains their accounts; a stream's or campaign's vault never has a delegate or a close authority, keeps its owner and is never closed, and its balance is lowered by nobody else; every stream is solvent; and the whole run is one of the histories that all the other properties are about.", "quantifier": "every sequence of operations of any length with any signers that are not derived addresses, every mint (balances: mints without interfering Token-2022 extensions), every state of the chain it leads to", "why_tests_cant": "The space of token-program operations by third parties (delegates, close authorities, account re-creation, authority changes) interleaved with the programs is unbounded; tests only try a few hostile calls.", "anchors": ["programs/lockup/src/instructions/create_with_timestamps.rs:CreateWithTimestamps", "programs/lockup/src/instructions/withdraw.rs:Withdraw", "programs/lockup/src/instructions/cancel.rs:Cancel", "programs/lockup/src/utils/transfer_helper.rs:transfer_tokens", "programs/merkle_instant/src/instructions/create_campaign.rs:CreateCampaign", "programs/merkle_instant/src/instructions/claim.rs:Claim", "programs/merkle_instant/src/instructions/clawback.rs:Clawback"]}
{"id": "C74", "title": "Transactions: all or nothing, and the runtime refuses nothing unexpected", "statement": "Take the chain as the runtime drives it: transactions with a fee payer, any number of instructions of the two programs and of others (also called by other programs), the checks after each instruction (only writable accounts change, lamports are conserved) and the rent check at the end. From an empty chain, whatever transactions are submitted: what happened is one of the histories that all other properties are about, with exactly the events of the committed transactions; all lamports together, also with those behind wrapped SOL, stay in range and every account of the programs keeps its documented size and its rent. A transaction of instructions of the two programs commits exactly when they succeed one after the other, the accounts they declare writable are writable in it, and each payer and each recipient of collected fees is left with nothing or with the rent of its size; otherwise it changes nothing but the fee.", "quantifier": "every sequence of transactions of any length by anybody, every list of instructions, every state it leads to", "why_tests_cant": "Tests submit a few one-instruction transactions from well-funded payers; the claim is about every combination of instructions, every payer balance and every history.", "anchors": ["programs/lockup/src/lib.rs:sablier_lockup", "programs/merkle_instant/src/lib.rs:sablier_merkle_instant", "programs/lockup/src/instructions/create_with_timestamps.rs:CreateWithTimestamps", "programs/lockup/src/instructions/withdraw.rs:Withdraw", "programs/lockup/src/instructions/withdraw.rs:charge_withdrawal_fee", "programs/merkle_instant/src/instructions/claim.rs:Claim"]}
{"id": "C75", "title": "The log accounts for every lamport of the treasuries", "statement": "From any moment after initialize on, the lamports of a program's treasury are what they were, plus all fees in the withdrawal (Lockup) or claim (Merkle Instant) events logged since, minus all amounts in its fee-collection events, plus what others sent to it and what the log says was collected into it: no lamport enters or leaves without a trace in the log or an outside transfer. With the deployed fees no event ever shows a fee, so everything that is collected was sent by others or was there before.", "quantifier": "every history of both programs with arbitrary other activity, both treasuries, every fee setting and oracle behaviour", "why_tests_cant": "It is a balance equation over all interleavings of withdrawals, claims, collections (also into the treasuries themselves) and outside transfers; tests check single balance changes.", "anchors": ["programs/lockup/src/instructions/withdraw.rs:charge_withdrawal_fee", "programs/lockup/src/instructions/collect_fees.rs:handler", "programs/merkle_instant/src/instructions/claim.rs:charge_claim_fee", "programs/merkle_instant/src/instructions/collect_fees.rs:handler", "programs/lockup/src/utils/events.rs", "programs/merkle_instant/src/utils/events.rs"]}
{"id": "C76", "title": "Waiting never costs the recipient and never pays the sender", "statement": "Whatever anybody does in the meantime (the sender may cancel or renounce, anybody may withdraw for the recipient), the amount withdrawable_amount_of reports later is at least the amount it reports now minus what the Withdraw events in between took; so a withdraw that is in range now still succeeds at any later time as long as the withdrawals in between leave room for it. The amount refundable_amount_of reports never grows, and a later cancel refunds at most what is refundable now.", "quantifier": "every stream, every reachable state and every later state of every history with a clock that does not run backwards, with arbitrary instructions and arbitrary other activity in between", "why_tests_cant": "Quantifies over all delays and all interleavings of other people's transactions between signing and execution.", "anchors": ["programs/lockup/src/utils/lockup_math.rs: get_streamed_amount, get_withdrawable_amount, get_refundable_amount", "programs/lockup/src/instructions/withdraw.rs: handler", "programs/lockup/src/instructions/cancel.rs: handler"]}
{"id": "C77", "title": "The client's tree helper and the on-chain claim agree", "statement": "For every non-empty list of airdrop entries, the root the client helper computes is the root of one Merkle tree whose leaves are exactly those entries; the proof the helper returns for any entry of the list is accepted by the on-chain check against that root while the campaign is open, has at most ceil(log2 n) hashes, and a claim with it succeeds whenever the campaign is ready; a claim that succeeds against that root, whatever its proof, is for an entry of the list, short of a hash collision.", "quantifier": "every list of entries of any length (odd lengths and repeated entries included), every entry, every proof, every campaign created with the helper's root, every reachable state", "why_tests_cant": "The tests build one tree of four leaves; the layer algorithm treats odd layers differently at every length, and each position takes a different path.", "anchors": ["tests/merkle-instant/utils/merkle.ts:getProof", "tests/merkle-instant/utils/merkle.ts:getRoot", "tests/merkle-instant/utils/merkle.ts:buildTree", "tests/merkle-instant/utils/merkle.ts:computeLeaf", "programs/merkle_instant/src/utils/validations.rs:check_claim"]}
{"id": "C78", "title": "Every instruction fits in one transaction, claims up to a known proof length", "statement": "The signed transaction the client helper builds for any instruction that can succeed, other than a claim, is at most 1232 bytes, whoever pays for it and with or without a compute limit. A claim fits with a proof of at most 15 hashes in any case, 18 if the claimer pays, 20 if the claimer pays and sets no compute limit; with different accounts these bounds are exact, and with more than 21 hashes no claim fits. Every entry of a campaign made with the client's tree helper from at most 2^18 entries can be claimed in one transaction of the claimer (2^15 when somebody else pays). The account list a client passes marks exactly the accounts the instruction may change as writable, and only its first account as signer, whose signature is necessary.", "quantifier": "every instruction with every account and argument, every payer, block hash, signature function and compute limit, every proof length and every list of entries", "why_tests_cant": "The tests send a handful of transactions and a tree of four leaves; the size depends on names, CIDs, proof lengths and on which accounts coincide.", "anchors": ["tests/common/anchor-bankrun.ts:buildSignAndProcessTx", "programs/lockup/src/lib.rs", "programs/merkle_instant/src/lib.rs:claim", "programs/lockup/src/instructions/create_with_timestamps.rs:CreateWithTimestamps", "programs/merkle_instant/src/instructions/claim.rs:Claim"]}
{"id": "C79", "title": "No account can be substituted", "statement": "The choices of the caller (the parties, the stream or campaign, and the arguments that addresses are derived from) and the state of the chain determine every account of an instruction that succeeds: treasury, vault, token accounts, NFT mint, NFT account, metadata, edition, oracle, feed and programs. Two calls that both succeed in a state and agree on the choices pass the same account list, flags included; with the same arguments too they are the same instruction and leave the same state and events, whoever else signed.", "quantifier": "all instructions of both programs, every reachable state, every account list, every set of signers and arguments; short of two different inputs of the address hash with the same result, where a stream's NFT is looked up", "why_tests_cant": "A test passes one wrong account at a time; that no combination of accounts an attacker controls passes every check needs all account lists and all states.", "anchors": ["programs/lockup/src/instructions/withdraw.rs:Withdraw", "programs/lockup/src/instructions/cancel.rs:Cancel", "programs/lockup/src/instructions/create_with_timestamps.rs:CreateWithTimestamps", "programs/lockup/src/instructions/renounce.rs:Renounce", "programs/merkle_instant/src/instructions/claim.rs:Claim", "programs/merkle_instant/src/instructions/clawback.rs:Clawback", "programs/merkle_instant/src/instructions/create_campaign.rs:CreateCampaign"]}
{"id": "C80", "title": "Every instruction moves exactly its tokens", "statement": "An accepted instruction changes the token balance of every account by exactly its token bill, computed from its accounts and arguments and the views of the state before: create moves the deposit from the creator's account to the vault and puts one NFT into the recipient's account, initialize puts one collection NFT into the treasury's, withdraw moves its amount, withdraw_max what withdrawable_amount_of reports and cancel what refundable_amount_of reports out of the vault, claim and clawback move their amount, and every other instruction moves nothing. Token accounts are never closed and never change owner, mint, program or frozen flag; the only new ones are those the instruction names. So the balance of any account at any moment is what it was at an earlier one, plus the bills in between, plus what others did; and others can only add to vaults.", "quantifier": "all instructions of both programs with all accounts, arguments and signers, every account of the chain, every reachable state and every history with arbitrary other activity", "why_tests_cant": "A test compares the balances of the two or three accounts it knows; that no other balance moves, for all account lists and along all histories, needs every account and every run.", "anchors": ["programs/lockup/src/instructions/withdraw.rs:handler", "programs/lockup/src/instructions/withdraw_max.rs:handler", "programs/lockup/src/instructions/cancel.rs:handler", "programs/lockup/src/instructions/create_with_timestamps.rs:handler", "programs/merkle_instant/src/instructions/claim.rs:handler", "programs/merkle_instant/src/instructions/clawback.rs:handler", "programs/lockup/src/utils/transfer_helper.rs"]}
{"id": "C81", "title": "Exactly these calls succeed", "statement": "When the payer can pay and the destination has room, an instruction succeeds if and only if its listed conditions hold, and the conditions are stated on the accounts, arguments, signers and views before the call. Renounce: the stream's sender signs, the stream is cancelable and not fully streamed. Cancel: something is refundable, the sender signs, the stream is cancelable, and the accounts are the stream's own. Withdraw: the amount is between 1 and what withdrawable_amount_of reports and the NFT's holder is the recipient (or signs, for another destination); withdraw_max the same with the whole reported amount. Clawback: the campaign's creator signs and the campaign has not been claimed from, is within the grace period or is over. Claim: the proof leads from the leaf to the root, the campaign has begun and has not expired, and the receipt does not exist. Create, campaign creation, both initialisations and both fee collections likewise. Nothing else refuses such a call, and no call outside the list is accepted.", "quantifier": "all instructions of both programs with all accounts, arguments and signers, in all reachable states in which money and room are no obstacle", "why_tests_cant": "Tests try some accepted and some refused calls; that the listed conditions are both sufficient and necessary is a statement over all calls and all reachable states.", "anchors": ["programs/lockup/src/instructions/cancel.rs", "programs/lockup/src/instructions/withdraw.rs", "programs/lockup/src/instructions/withdraw_max.rs", "programs/lockup/src/instructions/renounce.rs", "programs/lockup/src/instructions/create_with_timestamps.rs", "programs/lockup/src/instructions/create_with_durations.rs", "programs/lockup/src/instructions/initialize.rs", "programs/lockup/src/instructions/collect_fees.rs", "programs/lockup/src/utils/validations.rs", "programs/merkle_instant/src/instructions/claim.rs", "programs/merkle_instant/src/instructions/clawback.rs", "programs/merkle_instant/src/instructions/create_campaign.rs", "programs/merkle_instant/src/utils/validations.rs"]}
{"id": "C82", "title": "A refused call with the right accounts says exactly why", "statement": "When the accounts and signers of a call are right - the same ones would do for some amount, or for some other valid terms - and the stream, the campaign or the parameters do not allow it, the call fails with the error of the first requirement broken, and with no other: no failure of account validation, of a token program or of arithmetic hides the reason. Withdraw: StreamDepleted, WithdrawAmountZero, Overdraw; cancel: StreamDepleted, StreamCanceled, StreamIsNotCancelable, StreamSettled; renounce: StreamAlreadyNonCancelable; claim: CampaignNotStarted, CampaignExpired, InvalidMerkleProof; clawback: ClawbackNotAllowed; create: the seven errors of the parameters. If moreover the amounts can be paid and received, the result is decided by these requirements alone: an error if and only if it names the first broken one, success if and only if all hold.", "quantifier": "all calls of withdraw, withdraw_max, cancel, renounce, claim, clawback and create_with_timestamps, in all reachable states, at all times", "why_tests_cant": "The repository's tests check one error for one case each; that the right accounts never lead to another error is a statement over all states, amounts, times and proofs.", "anchors": ["programs/lockup/src/utils/validations.rs", "programs/merkle_instant/src/utils/validations.rs", "programs/lockup/src/utils/errors.rs", "programs/merkle_instant/src/utils/errors.rs", "programs/lockup/src/instructions/withdraw.rs:handler", "programs/lockup/src/instructions/cancel.rs:handler", "programs/lockup/src/instructions/create_with_timestamps.rs:handler", "programs/merkle_instant/src/instructions/claim.rs:handler", "programs/merkle_instant/src/instructions/clawback.rs:handler"]}
{"id": "C83", "title": "What a stream pays in its whole life depends only on its terms and the time of its cancellation", "statement": "Every stream is canceled at most once in its whole history. If it is never canceled, nothing is ever refunded and it is depleted exactly when the withdrawals reported for it add up to the deposit. If it is canceled, at time t and signed by its sender, then the refunds reported add up to the deposit minus what the schedule releases at t, the withdrawals never add up to more than what the schedule releases at t, and they reach it exactly when the stream is depleted. So the totals of a settled stream do not depend on when, by whom, to whom, or in how many portions it was withdrawn, on the transfers of its NFT, on renouncing, or on anything else in the history.", "quantifier": "all streams in all histories, under any clock; all pairs of histories for the comparison", "why_tests_cant": "It ranges over every interleaving of withdrawals, transfers, renunciations and cancellations; tests sample a few sequences.", "anchors": ["programs/lockup/src/instructions/cancel.rs:handler", "programs/lockup/src/instructions/withdraw.rs:handler", "programs/lockup/src/state/lockup.rs", "programs/lockup/src/utils/lockup_math.rs"]}
{"id": "C84", "title": "What a campaign pays, and to whom, depends only on which entries were claimed", "statement": "For a campaign built from a tree whose entries have distinct positions, the claims of any history are exactly the tree's entries at the claimed positions, each once, with the recipients and amounts of the tree. So every recipient has received exactly the amounts of his claimed entries, never more than the tree gives him, and all of it once all his entries are claimed; and two histories, of the same or of different campaigns with that tree, in which the same positions are claimed have paid the same to everybody, whoever claimed, when and in which order - unless a claim exhibited a hash collision.", "quantifier": "all histories under any clock, all trees of any shape and size with distinct positions, all recipients", "why_tests_cant": "It ranges over all trees, all orders and times of claims by anyone, with any other activity in between.", "anchors": ["programs/merkle_instant/src/instructions/claim.rs:handler", "programs/merkle_instant/src/utils/validations.rs", "programs/merkle_instant/src/state/claim_receipt.rs", "programs/merkle_instant/src/utils/events.rs"]}
{"id": "C85", "title": "It does not matter who delivers a payout", "statement": "If the same withdrawal (the same accounts and amount but for the caller, or the same withdraw_max) succeeds at the same state whoever calls it, it has the same result for both callers: the same account data everywhere, the same events, the same lamports on every account except the two callers, and the same price for each of them; likewise a claim, whose event differs in the named claimer alone. And whatever withdrawal to the recipient, or claim, succeeds for one caller succeeds for everybody else who signs and can pay for it, so nobody has a privilege in the delivery and no caller gets more to the recipient than another.", "quantifier": "all reachable states, streams, campaigns, amounts, proofs, pairs of callers", "why_tests_cant": "It compares two executions from every reachable state for every pair of callers.", "anchors": ["programs/lockup/src/instructions/withdraw.rs:handler", "programs/lockup/src/instructions/withdraw_max.rs:handler", "programs/merkle_instant/src/instructions/claim.rs:handler", "programs/lockup/src/utils/validations.rs:check_withdraw"]}
{"id": "C86", "title": "The phases of a campaign come once and in one order", "statement": "With a clock that does not go backwards: once has_campaign_started, has_expired or has_claimed returns true for a campaign it does so in every later state. Before the start time nothing has ever been claimed and no first claim is recorded; from the expiration on nothing is ever claimed any more, the campaign account never changes again and clawback stays allowed. Once more than seven days have passed since the first claim, no clawback succeeds until the campaign expires, and without an expiration none ever again.", "quantifier": "all reachable states, campaigns and later states, with any activity in between", "why_tests_cant": "It is about every continuation of every history, at any clock values.", "anchors": ["programs/merkle_instant/src/utils/validations.rs:check_claim", "programs/merkle_instant/src/utils/validations.rs:check_clawback", "programs/merkle_instant/src/instructions/view/has_expired.rs", "programs/merkle_instant/src/instructions/view/has_campaign_started.rs", "programs/merkle_instant/src/instructions/view/has_claimed.rs"]}
{"id": "C87", "title": "Only the time elapsed matters, not the date", "statement": "Two streams with the same deposit and unlocks whose start, cliff and end lie d seconds apart (no cliff in one is no cliff in the other), and from which as much was withdrawn and refunded, give the same answers to all views d seconds apart: streamed, withdrawable and refundable amount and status. Streams created by create_with_durations with the same durations and amounts at different times are such a pair from the start, and in their whole lives they pay the same to recipients and sender if they are canceled after the same time, or never.", "quantifier": "all reachable states, pairs of streams, shifts, times and pairs of histories", "why_tests_cant": "It compares two executions at all dates.", "anchors": ["programs/lockup/src/utils/lockup_math.rs:get_streamed_amount", "programs/lockup/src/instructions/create_with_durations.rs:handler", "programs/lockup/src/instructions/view/status_of.rs"]}
{"id": "C88", "title": "Whoever holds the NFT decides, and a sale hands everything over", "statement": "Every withdrawal from a stream that succeeds names the token account that holds the stream's NFT and its owner, and pays the owner's own account or is signed by the owner; so a former holder can direct nothing (unless two inputs of the address hash collide). Nothing that happens outside the program, a sale of the NFT in particular, changes the stream record or lowers what can be withdrawn, and the new holder can withdraw all of it.", "quantifier": "all histories with any NFT transfers, all streams, holders, callers and destinations", "why_tests_cant": "It is about every history of NFT transfers and every later call.", "anchors": ["programs/lockup/src/instructions/withdraw.rs:Withdraw", "programs/lockup/src/instructions/withdraw.rs:handler", "programs/lockup/src/instructions/withdraw_max.rs:handler"]}
{"id": "C89", "title": "Better terms never pay less, and splitting a deposit changes at most the rounding", "statement": "A stream whose deposit and unlocks are no smaller and whose start, cliff and end are no later never shows less streamed than the other, at the same time or later. A deposit split over n streams with the same times, whose deposits and unlocks add up, streams together at every moment what the undivided stream does, or up to n-1 base units less, never more; over whole lives the recipients get the same, up to the same rounding (which goes back to the sender) if all are canceled at the same time, and exactly the same if none is canceled.", "quantifier": "all pairs of streams, all splits into any number of streams, all times, all histories", "why_tests_cant": "It compares every stream with every other, and every way to split one, at every time.", "anchors": ["programs/lockup/src/utils/lockup_math.rs:get_streamed_amount", "programs/lockup/src/utils/lockup_math.rs:get_refundable_amount"]}
