{
 "claims": [
  {
   "property": "C01",
   "status": "proved",
   "theorems": [
    "C01_streamed_amount",
    "C01_client_replica"
   ],
   "note": ""
  },
  {
   "property": "C02",
   "status": "proved",
   "theorems": [
    "C02_monotone",
    "C02_monotone_history"
   ],
   "note": ""
  },
  {
   "property": "C03",
   "status": "proved",
   "theorems": [
    "C03_rounding"
   ],
   "note": ""
  },
  {
   "property": "C04",
   "status": "proved",
   "theorems": [
    "C04_accepted_is_valid",
    "C04_rejected_with_first_error",
    "C04_requirements"
   ],
   "note": ""
  },
  {
   "property": "C05",
   "status": "proved",
   "theorems": [
    "C05_durations"
   ],
   "note": ""
  },
  {
   "property": "C06",
   "status": "proved",
   "theorems": [
    "C06_create",
    "C06_create_durations"
   ],
   "note": ""
  },
  {
   "property": "C07",
   "status": "proved",
   "theorems": [
    "C07_never_more_than_deposit",
    "C07_vault_outflow"
   ],
   "note": ""
  },
  {
   "property": "C08",
   "status": "proved",
   "theorems": [
    "C08_solvent",
    "C08_vaults_distinct",
    "C08_vault_stays"
   ],
   "note": ""
  },
  {
   "property": "C09",
   "status": "proved",
   "theorems": [
    "C09_withdraw",
    "C09_withdraw_to_the_stream_itself"
   ],
   "note": "If the withdrawal recipient is the stream itself, the destination is the vault and the balance does not change (second theorem)."
  },
  {
   "property": "C10",
   "status": "proved",
   "theorems": [
    "C10_authorised",
    "C10_own_nft"
   ],
   "note": "Up to an explicit collision of the address hash on given inputs."
  },
  {
   "property": "C11",
   "status": "proved",
   "theorems": [
    "C11_withdraw_max_is_withdraw",
    "C11_withdraw_max_empties"
   ],
   "note": ""
  },
  {
   "property": "C12",
   "status": "proved",
   "theorems": [
    "C12_cancel",
    "C12_after_cancel"
   ],
   "note": ""
  },
  {
   "property": "C13",
   "status": "proved",
   "theorems": [
    "C13_cancel_needs_sender",
    "C13_renounce_needs_sender",
    "C13_any_step"
   ],
   "note": ""
  },
  {
   "property": "C14",
   "status": "proved",
   "theorems": [
    "C14_irreversible",
    "C14_ways"
   ],
   "note": ""
  },
  {
   "property": "C15",
   "status": "proved",
   "theorems": [
    "C15_follows_schedule",
    "C15_after_renounce"
   ],
   "note": ""
  },
  {
   "property": "C16",
   "status": "proved",
   "theorems": [
    "C16_status_moves_forward",
    "C16_cold_statuses_stay"
   ],
   "note": ""
  },
  {
   "property": "C17",
   "status": "proved",
   "theorems": [
    "C17_status_and_amounts"
   ],
   "note": ""
  },
  {
   "property": "C18",
   "status": "proved",
   "theorems": [
    "C18_views_answer",
    "C18_refundable_is_refund",
    "C18_zero_iff_no_cancel",
    "C18_withdraw_accepts_exactly"
   ],
   "note": "views answer in every reachable state; withdraw accepts exactly 1..withdrawable; refund view equals the refund of a cancel"
  },
  {
   "property": "C19",
   "status": "proved",
   "theorems": [
    "C19_withdraw_succeeds",
    "C19_withdraw_max_succeeds",
    "C19_everything_in_the_end"
   ],
   "note": "liveness under withdraw_ready (accounts exist, unfrozen, signer can pay)"
  },
  {
   "property": "C20",
   "status": "proved",
   "theorems": [
    "C20_cancel_succeeds",
    "C20_renounce_succeeds"
   ],
   "note": "liveness under cancel_ready"
  },
  {
   "property": "C21",
   "status": "proved",
   "theorems": [
    "C21_terms_immutable"
   ],
   "note": ""
  },
  {
   "property": "C22",
   "status": "proved",
   "theorems": [
    "C22_isolated"
   ],
   "note": ""
  },
  {
   "property": "C23",
   "status": "proved",
   "theorems": [
    "C23_no_second_create",
    "C23_create_once",
    "C23_unique",
    "C23_stream_exists",
    "C23_exists_forever"
   ],
   "note": "stream_exists up to an explicit collision of the address hash."
  },
  {
   "property": "C24",
   "status": "proved",
   "theorems": [
    "C24_one_nft",
    "C24_one_recipient"
   ],
   "note": ""
  },
  {
   "property": "C25",
   "status": "proved",
   "theorems": [
    "C25_counter",
    "C25_initialized"
   ],
   "note": ""
  },
  {
   "property": "C26",
   "status": "proved",
   "theorems": [
    "C26_balance_equation",
    "C26_path_independent"
   ],
   "note": ""
  },
  {
   "property": "C27",
   "status": "proved",
   "theorems": [
    "C27_lockup_collect",
    "C27_merkle_collect",
    "C27_lockup_collect_iff",
    "C27_merkle_collect_iff",
    "C27_lockup_only_collector",
    "C27_merkle_only_collector"
   ],
   "note": "Amount, recipient, remainder, failure case, and: no other step of any history decreases a treasury."
  },
  {
   "property": "C28",
   "status": "proved",
   "theorems": [
    "C28_lockup_initialize",
    "C28_merkle_initialize",
    "C28_lockup_once",
    "C28_merkle_once",
    "C28_lockup_settings",
    "C28_merkle_settings"
   ],
   "note": "Count of successful initialize in a history is at most one; settings and rent in every later world."
  },
  {
   "property": "C29",
   "status": "proved",
   "theorems": [
    "C29_fee",
    "C29_zero"
   ],
   "note": "Both copies of the conversion are the same function of the oracle answers. The clock is assumed below 2^32 (the code casts it to u32)."
  },
  {
   "property": "C30",
   "status": "proved",
   "theorems": [
    "C30_deployed_never_aborts",
    "C30_aborts_iff",
    "C30_safe_range",
    "C30_failing_oracle_refuted",
    "C30_zero_price_refuted",
    "C30_decimals_refuted",
    "C30_large_fee_refuted",
    "C30_wrapped_price_refuted",
    "C30_abort_blocks_withdraw",
    "C30_abort_blocks_claim",
    "C30_blocked_refuted",
    "C30_failing_oracle_blocks"
   ],
   "note": "True at the deployed fee of 0; exact characterisation of the aborting oracle replies for positive fees, and reachable worlds in which an oracle answer, or a failing oracle program, blocks every withdrawal."
  },
  {
   "property": "C31",
   "status": "proved",
   "theorems": [
    "C31_withdraw",
    "C31_claim"
   ],
   "note": "All lamport changes of withdraw, withdraw_max and claim, account by account."
  },
  {
   "property": "C32",
   "status": "proved",
   "theorems": [
    "C32_lockup",
    "C32_merkle"
   ],
   "note": "Totals of balances and supplies for every mint and the total of lamports."
  },
  {
   "property": "C33",
   "status": "proved",
   "theorems": [
    "C33_claim_in_window",
    "C33_outside_fails",
    "C33_views",
    "C33_window_views"
   ],
   "note": ""
  },
  {
   "property": "C34",
   "status": "proved",
   "theorems": [
    "C34_check_accepts",
    "C34_has_proof",
    "C34_claim_succeeds"
   ],
   "note": "For any 32-byte hash; the proof is accepted by the check and by the claim instruction."
  },
  {
   "property": "C35",
   "status": "proved",
   "theorems": [
    "C35_check_sound",
    "C35_claim"
   ],
   "note": "Unconditional: the entry is in the tree, or two different explicit byte strings (one hashed when building the tree, one hashed during the check) with equal hash are exhibited."
  },
  {
   "property": "C36",
   "status": "proved",
   "theorems": [
    "C36_once",
    "C36_second_fails",
    "C36_has_claimed"
   ],
   "note": ""
  },
  {
   "property": "C37",
   "status": "proved",
   "theorems": [
    "C37_claim_exact",
    "C37_any_signer"
   ],
   "note": ""
  },
  {
   "property": "C38",
   "status": "proved",
   "theorems": [
    "C38_claims_bounded"
   ],
   "note": ""
  },
  {
   "property": "C39",
   "status": "proved",
   "theorems": [
    "C39_fixed",
    "C39_unclaimed",
    "C39_first_claim",
    "C39_clock_zero"
   ],
   "note": "A first claim at clock 0 leaves the field 0 (C39_clock_zero)."
  },
  {
   "property": "C40",
   "status": "proved",
   "theorems": [
    "C40_clawback_only",
    "C40_clawback_denied",
    "C40_clawback_succeeds"
   ],
   "note": "Success assumes the clock is at most the i64 maximum."
  },
  {
   "property": "C41",
   "status": "proved",
   "theorems": [
    "C41_protected",
    "C41_vault_exists"
   ],
   "note": ""
  },
  {
   "property": "C42",
   "status": "proved",
   "theorems": [
    "C42_actual",
    "C42_refuted"
   ],
   "note": "The statement is false of the code: exact behaviour of the view proved, with a reachable counterexample in each direction."
  },
  {
   "property": "C43",
   "status": "proved",
   "theorems": [
    "C43_terms",
    "C43_created"
   ],
   "note": ""
  },
  {
   "property": "C44",
   "status": "proved",
   "theorems": [
    "C44_lockup",
    "C44_merkle",
    "C44_ata",
    "C44_metaplex",
    "C44_one_stream",
    "C44_one_campaign"
   ],
   "note": "Unconditional up to an explicitly exhibited collision of the address hash."
  },
  {
   "property": "C45",
   "status": "proved",
   "theorems": [
    "C45_roundtrip",
    "C45_exact_size",
    "C45_campaign_fits",
    "C45_create_limits",
    "C47_campaign_succeeds"
   ],
   "note": "Byte formats modelled in Borsh.v with real SHA-256 discriminators. The accepted IPFS CID can exceed the constant of 59 bytes when the name is short (C45_long_cid)."
  },
  {
   "property": "C46",
   "status": "proved",
   "theorems": [
    "C46_never_claimed",
    "C46_always_refundable"
   ],
   "note": ""
  },
  {
   "property": "C47",
   "status": "proved",
   "theorems": [
    "C47_create_succeeds",
    "C47_create_durations_succeeds",
    "C47_campaign_succeeds",
    "C47_front_run_refuted",
    "C47_front_run_campaign_refuted",
    "C47_nft_program"
   ],
   "note": "succeeds when the vault address is still free; the unconditional claim is refuted: anyone can pre-create the vault and block the identity for ever The NFT's token program must be one whose mints Metaplex's master-edition instruction accepts (`md_accepts`, arbitrary); C47_nft_program: with any other, every create fails."
  },
  {
   "property": "C48",
   "status": "proved",
   "theorems": [
    "C48_lockup",
    "C48_merkle",
    "C48_lockup_views",
    "C48_merkle_views"
   ],
   "note": ""
  },
  {
   "property": "C49",
   "status": "proved",
   "theorems": [
    "C49_base58",
    "C49_nft_name"
   ],
   "note": ""
  },
  {
   "property": "C50",
   "status": "proved",
   "theorems": [
    "C50_lockup_received",
    "C50_merkle_received",
    "C50_lockup_exact",
    "C50_merkle_exact",
    "C50_lockup_arguments",
    "C50_merkle_arguments"
   ],
   "note": "The IDL and event instructions Anchor adds are not modelled."
  },
  {
   "property": "C51",
   "status": "proved",
   "theorems": [
    "C51_lockup",
    "C51_merkle"
   ],
   "note": "Vault outflows themselves are governed by C09-C12, C33, C40."
  },
  {
   "property": "C52",
   "status": "proved",
   "theorems": [
    "C52_all_streams_covered",
    "C52_no_negative_debt"
   ],
   "note": "Sum over all streams of a token, for every reachable world; the middle term is what accounts owned by stream accounts hold."
  },
  {
   "property": "C53",
   "status": "proved",
   "theorems": [
    "C53_cancel_withdraw_commute"
   ],
   "note": "For a cancel and a withdraw accepted in both orders at one instant: identical account data, identical withdraw event, cancel events differ only by the withdrawn amount."
  },
  {
   "property": "C54",
   "status": "proved",
   "theorems": [
    "C54_smaller_amount",
    "C54_two_equal_one",
    "C54_part_then_max"
   ],
   "note": "Except for the degenerate recipient that is the stream itself, for which the vault is the destination (see C09)."
  },
  {
   "property": "C55",
   "status": "proved",
   "theorems": [
    "C55_vault_accounting",
    "C55_stays_funded",
    "C55_everyone_can_claim",
    "C55_guaranteed"
   ],
   "note": "Vault accounting over runs, preservation of full funding, and claimability of each unclaimed entry, up to a hash collision exhibited in the trace."
  },
  {
   "property": "C56",
   "status": "proved",
   "theorems": [
    "C56_log_tells_streams",
    "C56_log_tells_campaigns",
    "C56_receipts"
   ],
   "note": "Event log versus account state along every history; empty log for addresses without a stream or campaign."
  },
  {
   "property": "C57",
   "status": "proved",
   "theorems": [
    "C57_accounting",
    "C57_over_time",
    "C57_withdraw_figures",
    "C57_cancel_figures",
    "C57_renounce_figures"
   ],
   "note": "Accounting and monotonicity need a clock that does not run backwards (reachable_fwd); the per-instruction figures do not."
  },
  {
   "property": "C58",
   "status": "proved",
   "theorems": [
    "C58_creation_stays_open",
    "C58_nothing_before_initialize"
   ],
   "note": "Histories in which other programs also respect Metaplex's protection of the collection NFT (collection_kept, written in PropOpen.v next to the theorem); the creator's own requirements are creator_ready. The remaining obstacle, somebody else creating the vault's token account first, is C47. The NFT's token program must be one that Metaplex accepts."
  },
  {
   "property": "C59",
   "status": "proved",
   "theorems": [
    "C59_initialize_succeeds",
    "C59_deployer_only_refuted",
    "C59_merkle_initialize_succeeds",
    "C59_merkle_deployer_only_refuted",
    "C59_nft_program"
   ],
   "note": "Proved as stated. The two _refuted theorems show that the stronger expectation \"only the deployer decides the settings\" is false: any funded first caller fixes them for ever. The collection NFT's token program must be one that Metaplex accepts; with any other, initialize fails (C59_nft_program)."
  },
  {
   "property": "C60",
   "status": "proved",
   "theorems": [
    "C60_lockup_decodes",
    "C60_merkle_decodes",
    "C60_lockup_exact",
    "C60_merkle_exact",
    "C60_lockup_events",
    "C60_merkle_events",
    "C60_lockup_views",
    "C60_merkle_views"
   ],
   "note": "Hypothesis `typed`: mint decimals are a u8 and lamports a u64, the types of fields that other programs own."
  },
  {
   "property": "C61",
   "status": "proved",
   "theorems": [
    "C61_codes_distinct",
    "C61_cancel",
    "C61_renounce",
    "C61_withdraw",
    "C61_withdraw_max",
    "C61_claim",
    "C61_clawback",
    "C61_lockup_errors",
    "C61_merkle_errors"
   ],
   "note": "Both directions: a program error reported by cancel, renounce, withdraw, withdraw_max, claim or clawback is the one of the first broken requirement of the stream or campaign as the views show it; and a broken requirement makes the instruction fail, with that error unless account validation, a token program or arithmetic fails first. The set of program errors each of the 13 instructions can return is exact above (upper bound). The error order of create is C04, of collect_fees C27."
  },
  {
   "property": "C62",
   "status": "proved",
   "theorems": [
    "C62_lockup",
    "C62_merkle",
    "C62_clawback",
    "C62_renounce"
   ],
   "note": "For every world and every choice of accounts, with no hypotheses. The lists are transcribed from the mut/init/init_if_needed markers of the accounts structs; two Examples show them tight."
  },
  {
   "property": "C63",
   "status": "proved",
   "theorems": [
    "C63_local",
    "C63_writable",
    "C63_not_influenced",
    "C63_commute",
    "C63_parallel"
   ],
   "note": "For every world, with no hypotheses on it. Examples: a claim and a withdrawal, a withdrawal and a renouncement; a conflicting pair shows the premise is needed."
  },
  {
   "property": "C64",
   "status": "proved",
   "theorems": [
    "C64_supply",
    "C64_no_withdrawal",
    "C64_payouts_over"
   ],
   "note": "For every later history. \"Unless the address hash collides\" is spelled out as in C24. That the sender can still cancel is C20 (whose premises do not mention the NFT holder); the Example shows both sides in a burned state."
  },
  {
   "property": "C65",
   "status": "proved",
   "theorems": [
    "C65_payouts_commute",
    "C65_any_order"
   ],
   "note": "For every world and every environment, in any mixture of the four paying instructions; the batch theorem is for lists of any length and any permutation. The Example is a batch of four that shares payer, treasury, mint, campaign, vault and destination."
  },
  {
   "property": "C66",
   "status": "proved",
   "theorems": [
    "C66_bill",
    "C66_payer"
   ],
   "note": "For every environment, world, instruction and signer list; the fee is the one the fee views quote, the rents are those of the accounts the instruction creates that do not exist yet, and the metadata account of a new NFT costs its whole rent and Metaplex's fee."
  },
  {
   "property": "C67",
   "status": "proved",
   "theorems": [
    "C67_accounts_last",
    "C67_rent_exempt",
    "C67_rent_locked"
   ],
   "note": "For all reachable states and everything that can happen later, with any clock. The two treasuries are excluded from the last theorem only: collect_fees takes lamports from them (down to the rent minimum, C67_rent_exempt)."
  },
  {
   "property": "C68",
   "status": "proved",
   "theorems": [
    "C68_no_replay",
    "C68_at_most_once",
    "C68_salt_squatting"
   ],
   "note": "one_shot lists initialize, both creations, renounce, cancel, create_campaign and claim; the remaining instructions (withdraw, withdraw_max, clawback, collect_fees) are repeatable, shown in the Example. C68_salt_squatting is the other side (finding 9)."
  },
  {
   "property": "C69",
   "status": "proved",
   "theorems": [
    "C69_no_claim_before",
    "C69_fee_available",
    "C69_claims_stay_open"
   ],
   "note": "C69_claims_stay_open is for every Merkle tree and every genuine proof; its remaining hypotheses do not mention the contents of the treasury."
  },
  {
   "property": "C70",
   "status": "proved",
   "theorems": [
    "C70_lamports",
    "C70_moves",
    "C70_fits",
    "C70_history"
   ],
   "note": "Discharges the omitted overflow check of add_lamports: on a ledger in order (no negative amount, all lamports together a u64, what the runtime guarantees) it can never fire."
  },
  {
   "property": "C71",
   "status": "proved",
   "theorems": [
    "C71_rent_states"
   ],
   "note": "The check itself is the runtime's (Transaction.v, C74); the theorem says how every account other than the exposed one can come out of an instruction. The balance of the account is assumed not to be negative (C70 proves that it never is)."
  },
  {
   "property": "C72",
   "status": "proved",
   "theorems": [
    "C72_stream_vault",
    "C72_campaign_vault",
    "C72_payout_covered",
    "C72_shortfall_blocks",
    "C72_lockup_creates_nothing",
    "C72_merkle_creates_nothing",
    "C72_fee_token_is_underfunded"
   ],
   "note": "C72_fee_token_is_underfunded exhibits the finding; SECURITY.md declares such tokens unsupported."
  },
  {
   "property": "C73",
   "status": "proved",
   "theorems": [
    "C73_history",
    "C73_accounts_locked",
    "C73_vaults_locked",
    "C73_solvent"
   ],
   "note": "Up to two owners an account had during the run sharing their associated token account (an explicit hash collision). With C73_history every theorem about histories and reachable states applies to runs made of the concrete operations."
  },
  {
   "property": "C74",
   "status": "proved",
   "theorems": [
    "C74_in_order",
    "C74_history",
    "C74_accepted",
    "C74_outcome"
   ],
   "note": "Transaction.v models the runtime around the programs (fee, items with calls from other programs, per-instruction checks, rent-state check, rewards, clock). C74_history carries every theorem about histories over to chains of transactions. Wrapped SOL is included: the balance check counts lamports and wrapped lamports together."
  },
  {
   "property": "C75",
   "status": "proved",
   "theorems": [
    "C75_lockup_books",
    "C75_merkle_books",
    "C75_deployed"
   ],
   "note": "Exact balance equation between the event log and the treasuries' lamports along every run."
  },
  {
   "property": "C76",
   "status": "proved",
   "theorems": [
    "C76_recipient_may_wait",
    "C76_delayed_withdraw",
    "C76_sender_gains_nothing",
    "C76_delayed_cancel"
   ],
   "note": "Example C76_example: stream 1 of the script between 1400 and 1600, with a withdrawal and a cancel in between."
  },
  {
   "property": "C77",
   "status": "proved",
   "theorems": [
    "C77_root_commits",
    "C77_proof_accepted",
    "C77_proof_length",
    "C77_claim_succeeds",
    "C77_nothing_else"
   ],
   "note": "MerkleClient.v models tests/merkle-instant/utils/merkle.ts and the merkletreejs algorithm it calls (read from its documentation and public source from memory: the library is not in /repo). Non-vacuity: C77_example (the example campaign's root, and a list of seven entries)."
  },
  {
   "property": "C78",
   "status": "proved",
   "theorems": [
    "C78_fits",
    "C78_claim_fits",
    "C78_claim_limit",
    "C78_claim_too_long",
    "C78_campaign_size",
    "C78_writable",
    "C78_signers"
   ],
   "note": "Wire.v builds the bytes of the transaction (legacy message format). Version-0 transactions with address lookup tables are not modelled: the client helper does not use them. Non-vacuity: C78_example."
  },
  {
   "property": "C79",
   "status": "proved",
   "theorems": [
    "C79_no_substitution",
    "C79_same_outcome"
   ],
   "note": "same_choices lists what the caller chooses; x_metas is the account list of the transaction (Wire.v). The alternative is an explicit pair of different inputs of the address hash with the same result. C79_example: withdrawals that meet the hypotheses, and nine account lists with one other treasury, vault or oracle account that fail."
  },
  {
   "property": "C80",
   "status": "proved",
   "theorems": [
    "C80_token_bill",
    "C80_token_accounts",
    "C80_ledger",
    "C80_vaults"
   ],
   "note": "For tokens with transfer fees or other extensions the bill says what arrives (`received`); for plain tokens that is the amount. C80_vaults is for associated accounts of derived addresses of the programs and plain mints."
  },
  {
   "property": "C81",
   "status": "proved",
   "theorems": [
    "C81_renounce",
    "C81_cancel",
    "C81_withdraw",
    "C81_withdraw_max",
    "C81_clawback",
    "C81_claim",
    "C81_create",
    "C81_create_durations",
    "C81_campaign",
    "C81_initialize",
    "C81_merkle_initialize",
    "C81_collect_fees",
    "C81_merkle_collect_fees"
   ],
   "note": "The hypotheses (affordable, create_affordable, the payer's lamports) say that money and room are no obstacle, and that the vault holds what the stream owes it, which C02 gives for plain mints. The conditions are the *_ready records of the success theorems of C19, C20, C34, C40, C47 and C59; here they are shown necessary too."
  },
  {
   "property": "C82",
   "status": "proved",
   "theorems": [
    "C82_withdraw",
    "C82_withdraw_max",
    "C82_cancel",
    "C82_renounce",
    "C82_clawback",
    "C82_claim",
    "C82_create"
   ],
   "note": "Strengthens C61, whose converse direction allows a failure elsewhere. The right accounts are the *_ready records of the success theorems for any amount (claim_addressed for claims, where the window and the proof are left open). The fee collections are C27."
  },
  {
   "property": "C83",
   "status": "proved",
   "theorems": [
    "C83_one_life",
    "C83_settlement",
    "C83_only_the_time_matters"
   ],
   "note": "Totals are the sums of the Withdraw and Cancel events of the stream in the log; C09, C12 and C56 connect them with the tokens that move."
  },
  {
   "property": "C84",
   "status": "proved",
   "theorems": [
    "C84_claims_are_entries",
    "C84_shares",
    "C84_order_does_not_matter"
   ],
   "note": "Claims are the Claim events of the campaign in the log; C37 and C56 connect them with the tokens that move. That the accounts passed as recipient are the tree's is part of the statement (the event's recipient is the one of the leaf)."
  },
  {
   "property": "C85",
   "status": "proved",
   "theorems": [
    "C85_same_withdraw",
    "C85_same_withdraw_max",
    "C85_same_claim",
    "C85_anyone_can_deliver",
    "C85_anyone_can_claim"
   ],
   "note": "The success theorems ask that the second caller signs, can pay the fee and rents (affordable, as in C81) and is not himself the fresh token account of the destination; for a withdrawal also that the vault holds what the stream owes (C08 for plain mints). To a destination other than the recipient only the recipient can withdraw (C10)."
  },
  {
   "property": "C86",
   "status": "proved",
   "theorems": [
    "C86_views_never_go_back",
    "C86_nothing_before_start",
    "C86_nothing_after_expiry",
    "C86_clawback_periods"
   ],
   "note": "has_grace_period_passed is left out: it does not read the first claim (C42)."
  },
  {
   "property": "C87",
   "status": "proved",
   "theorems": [
    "C87_views",
    "C87_created_later",
    "C87_whole_life"
   ],
   "note": "Whole-life totals as in C83 (sums of the events), for depleted streams."
  },
  {
   "property": "C88",
   "status": "proved",
   "theorems": [
    "C88_owner_decides",
    "C88_others_cannot_direct",
    "C88_sale_hands_over"
   ],
   "note": "The collision is spelled out as in C24. An NFT in a token account that is not its owner's associated account cannot be used for withdrawals until it is moved there (a premise of withdraw_ready, as in C19). The Example is a sale as two steps of others."
  },
  {
   "property": "C89",
   "status": "proved",
   "theorems": [
    "C89_better_terms",
    "C89_split_views",
    "C89_split_whole_life",
    "C89_split_never_canceled"
   ],
   "note": "A missing cliff is stored as 0, and so counts as earlier than any cliff. The Examples split 3000 into 1001 and 1999, where one base unit is lost to rounding."
  }
 ]
}