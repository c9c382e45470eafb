# Formal model of sablier-labs/solsab in Rocq (Coq 8.16.1)

Two Anchor programs are modelled: `sablier_lockup` (programs/lockup) and `sablier_merkle_instant`
(programs/merkle_instant). The code is not run; the tie to the code is the reading, cited definition by definition, and
the repository's own test suite: `RepoTests.v` replays all 131 unit tests of /repo/tests (arrangement, act, expected error
or assertions) on the model, and all pass.

## 1. Architecture

### The model (what a reader must compare with /repo)

| file | content |
|---|---|
| `Base.v` | error monad; fixed-width arithmetic with `overflow-checks = true` (a panic is an explicit error), casts that wrap; byte strings; base-58; the string constants |
| `Utf8.v` | `String::from_utf8` |
| `Sha256.v` | SHA-256 (for Anchor's discriminators) |
| `LockupMath.v` | `utils/lockup_math.rs`, `utils/validations.rs`, `state/lockup.rs`, `view/status_of.rs`: the pure code of Lockup |
| `World.v` | the Solana world: lamports, typed account data, clock; address derivation; the effects of the System, SPL Token / Token-2022, Associated Token and Metaplex programs; Chainlink feed accounts; Anchor's account loading and constraints |
| `Fee.v` | `utils/fee_calculation.rs`, `charge_*_fee`, `collect_fees` arithmetic of both programs |
| `Lockup.v` | all 8 instructions and all views of Lockup, accounts struct by accounts struct |
| `Merkle.v` | all 5 instructions and all views of Merkle Instant; the hash is a parameter |
| `Borsh.v` | the byte formats: accounts with discriminators, instruction data, dispatch |
| `Keccak.v` | Keccak-256 (only used to run the concrete examples with the real hash) |
| `History.v` | histories: instructions of both programs by arbitrary signers, interleaved with arbitrary actions of everybody else (a rely relation) |
| `Outside.v` | what everybody else can do, operation by operation (token programs with delegates and close authorities, System, Associated Token, Metaplex, others); C73 derives the rely relation from it |
| `Transaction.v` | the runtime: transactions, fees, checks after each instruction and at the end; C74 proves that chains of transactions are histories |

### Specifications (what a theorem says, besides the model's instructions and views)

`StreamSpec.v` (the schedule, parameter validity), `Observe.v` (reading a stream, "nothing else changed"),
`PayExact.v` (`balance`, `paid_exactly`), `TreeSpec.v` (Merkle trees and their proofs), `Live.v` and the `*_ready` records
of `PropLive.v`, `PropCreateLive.v`, `PropClaim.v`, `PropClawback.v` (what a caller must bring for an instruction to
succeed), and a few definitions at the top of the `Prop*.v` files.

### Proofs

`Tactics`, `Inversion`, `InversionCreate` (what success of an instruction implies), `Frame`, `Frame2`, `Frame3` (what an
instruction leaves alone), `Step`, `StreamStep` (the effect of one step on each kind of account), `LockupInv`, `MerkleInv`,
`KeysInv` (invariants of histories), `StreamMath`, `Seeds`, `Facts`, `BorshProofs`; `Toy`, `ToyRun` (a concrete
environment and a concrete history of both programs, used by the non-vacuity examples). `RepoTests` (the repository's
unit tests on the model; tests, not proofs, apart from `C01_client_replica`).

`Prop*.v` hold the property theorems `Cnn_*`, with `Example`s beside them that meet the hypotheses on a concrete,
reachable world, and witnesses for the refuted claims.

## 2. Decisions

* Integers are `Z`; every Rust operation that can overflow is a checked operation returning `Err EPanic`; `as` casts are
  `mod 2^n`. Arguments are range-checked on entry; that this is exactly what Borsh decoding guarantees is C50.
* An instruction is a total function `exec : env -> signers -> ix -> world -> res (world * events)`. An error means the
  transaction is rolled back, which is the Solana runtime's rule: the world is not replaced. A transaction with several
  instructions is several consecutive steps; a rolled-back transaction is no step.
* Addresses are numbers below 2^256 (the little-endian value of the 32 bytes). Address derivation hashes the
  *concatenation* of the seeds, as Solana does, through an arbitrary function in the record `env`. No injectivity is
  assumed: where a property needs it, the theorem's conclusion offers an explicitly exhibited collision as alternative.
* Anchor's account handling is modelled in Anchor 0.31's order: load non-init accounts and check signers, create the
  `init` accounts, then check constraints, then run the handler.
* Account data is typed (`adata`); the constructor stands for owner program + discriminator. That real bytes have this
  shape (round trip, size, no confusion between types) is C45.
* Everybody else is the *rely relation* `others_step`: other programs and users may do anything the Solana ownership
  rules allow: create token accounts for our addresses, donate tokens and lamports, mint, burn, freeze, close, move the
  NFT, move the clock (forwards or backwards unless a theorem says `_fwd`), change oracle answers. They cannot write or
  delete data owned by the two programs, take their lamports, create accounts at the programs' derived addresses or spend
  from associated token accounts of plain tokens owned by those addresses.
* Token-2022 extensions are an arbitrary function: `ext_transfer` says for a mint, the two token accounts, the time and the
  amount whether a transfer is refused or how much of it is withheld from the receiver. `plain E m` says that mint `m` has no
  extension that interferes; only then does an amount arrive in full and does nobody else take from a vault (a permanent
  delegate may). Theorems that need `plain` say so; the others hold for every token.
  `guarded` says when a guard of one of the two token accounts (required memo, CPI guard) refuses a program's transfer.
* Deployed fee settings are 0 for both programs. They are parameters of `env`, so every theorem also covers other settings.

## 3. Plan per property

"Histories" means induction over `run` from a `genesis` world with an invariant; "inversion" means that success of the
instruction is taken apart into the facts it implies; "forward execution" means showing that no step of it fails.

| id | what is modelled | how it is proved | file |
|---|---|---|---|
| C01-C03 | `get_streamed_amount` in checked arithmetic; specification: the exact rational line | case analysis and nonlinear integer reasoning; C02 also along histories | PropSchedule |
| C04 | `check_create` | equivalence with a list of requirements in order | PropSchedule |
| C05, C06 | both create instructions | equality of the two; inversion and frame | PropSchedule, PropStream |
| C07, C08 | histories, events | invariant; sum over the events of the history | PropHistory |
| C09-C13, C22 | withdraw, withdraw_max, cancel, renounce | inversion, `paid_exactly` | PropStream |
| C14-C17, C21, C23, C25, C26 | histories | per-step effect on the stream, induction | PropHistory |
| C18-C20 | views and instructions in reachable worlds | forward execution from the invariant | PropLive |
| C24 | histories with the rely relation on sealed mints | invariant: supply <= 1 and sum of balances <= supply | PropHistory |
| C27, C28, C31 | treasuries, collect_fees, initialize | inversion, forward execution, histories | PropFees |
| C29, C30 | `convert_usd_fee_to_lamports` for an arbitrary fee | arithmetic; the false claim is refuted by reachable witnesses | PropFeeMath, PropFees |
| C32 | every instruction | sums over finite maps | PropConserve |
| C33, C36-C39 | claim, histories of claims | inversion, invariant with claim events | PropClaim, PropCampaign |
| C34, C35 | proof loop for an arbitrary hash; specification: trees | induction over trees; collision extraction | PropTree, PropClaim |
| C40, C41, C46 | clawback | inversion, forward execution, histories | PropClawback |
| C42 | the view handler | refuted by reachable witnesses; what it really computes | PropClawback |
| C43 | campaign records | histories | PropCampaign |
| C44 | seed lists | injectivity of the concatenation with one variable-length part | Seeds, PropMisc |
| C45, C50 | Borsh encoders/decoders | codecs with round-trip lemmas | BorshProofs, PropBorsh |
| C47 | create and create_campaign | forward execution; the unconditional claim is refuted (pre-created vault) | PropCreateLive |
| C48 | both programs in one world | each program's steps satisfy the rely relation of the other | PropMisc |
| C49 | base-58 and slicing | arithmetic on digit counts | PropNft |
| C51 | every instruction | frames of Frame*.v, lamport monotonicity of every called program | PropConsent |
| C52 | stream records, token accounts | injection of streams into vaults (C08) and sums over the account map | PropAggregate |
| C53 | cancel, withdraw | payouts as functions of the address; the split is the same in both orders | PropOrder |
| C54 | withdraw, withdraw_max | an accepted withdrawal replayed with another amount; payouts add up | PropOrder |
| C57 | views, withdraw, cancel, renounce | entitlement is unchanged by every accepted instruction (Facts) | PropOrder |
| C55 | campaign vaults, claims, clawbacks | vault accounting along runs, C35/C36 for what was claimed, multiset counting of tree entries, then C34 | PropFunded |
| C56 | events and accounts of both programs | invariant along histories: what one step adds to the log of one address matches what it does to its account; receipts from C36's invariant | PropLog |
| C61 | The error enums with their numbers; for each instruction the ordered list of requirements on the viewed stream or campaign. | The instruction is split at its check: everything before and after it fails only with errors that are not the programs' own (`nocustom`); the check is matched with the first broken requirement. | PropErrors |
| C60 | `#[event]` structs and `emit!`, return data of the views (Borsh.v) | codecs as in C45/C50; ranges of the fields from the invariants and argument checks | PropEvents |
| C62 | The writable list of each instruction, from the `mut`/`init`/`init_if_needed` markers. | Each called program touches only the accounts it is given as writable; composition through each instruction. | PropWritable |
| C58 | The collection accounts (data, mint, metadata, master edition) along a history; `kept_run` adds Metaplex's protection of the collection NFT to the rely. | Invariant `collection_at` from `initialize` on, with the counter bounded by the number of steps; then C47. | PropOpen |
| C59 | `initialize` of both programs in histories without one | before initialize no account exists at a Lockup-derived address (induction over the history); forward execution; C28 for finality | PropInit |
| C63 | The account list of each instruction (all fields of its accounts struct); two worlds that agree on it. | A relational (two-run) proof through every called program and instruction; with C62, commutation. | PropLocal |
| C64 | `supply` of the NFT mint; everything later. | Sealed mints only shrink (every step); balances are bounded by the supply; with C10/C24, no account can hold the 1 that withdraw requires. | PropBurn |
| C65 | `exec`, `run_batch`; worlds that differ by amounts on some accounts. | Each operation does the same in a world whose lamports and balances are shifted, as long as they suffice; each payout only shifts what another one sees; induction on the permutation for batches. | PropCommute |
| C66 | `exec` of both programs; `bill`, written from the list of accounts an instruction creates and from the fee views. | Inversion of each instruction; a ledger of moves (debtor, creditor, amount) is folded over the operations. | PropCosts |
| C67 | `history`, `later`; kind and size of every account of the programs. | Step invariants; lamports of an account can only be taken by its owner. | PropCosts |
| C68 | `one_shot`, `exec`, `later`, traces. | The account created by the first execution (C67), the receipt (C36) or the flag (C14) makes the second fail. | PropReplay |
| C69 | traces with the Merkle `initialize`, `claim`, `claim_fee_in_lamports`. | Invariant "no treasury, no receipt"; C28 (settings last) with C34 (claim succeeds). | PropReplay |
| C70 | `lamports_ok`, `exec`, `system_transfer`, `move_lamports`. | Every operation keeps the ledger in order; conservation (C32) bounds each amount by the total. | PropLamports |
| C71 | `exec`, `creates`, `rent_safe`. | From the exact bill (C66) by cases on the account. | PropRentState |
| C72 | `step`, `exec`, events, `total_balance`, with arbitrary `ext_transfer`. | The frame of each instruction (only accounts of the acting authority lose) with the payout inversion; `received` lies between 0 and the amount; a scripted history with a 1 % fee mint. | PropExt |
| C73 | `Outside.v`: the token programs' operations with delegates, close authorities, native mint and Token-2022 close; `crun` from the empty chain. | Invariant over runs: associated accounts belong to the owner they were derived for and are free of delegates and close authorities unless that owner could sign; with it each operation is an `others_step`, so the run is a history. | PropOutside |
| C74 | `Transaction.v`: transactions with fee payer, signers, writable accounts and a list of items (instructions of the two programs, groups of operations of `Outside.v`), per-instruction checks, rent states (`rent_state.rs`), clock, rewards. | Simulation of each committed transaction by steps of `crun`; invariant on sizes, rent and totals; the checks discharged from C32, C62, C66, C70, C71 and a new account-by-account lemma on which accounts come into being. | PropTransaction |
| C75 | Events of histories (`entered`, `booked`: what each event says about a treasury) against the lamports of the treasuries; what others send is summed along the worlds passed (`sent`). | Invariant along runs, from the exact bills of C31/C66 and the collections of C27; the treasuries are at one address each and nobody signs for them. | PropBooks |
| C76 | Two worlds of a history, the views of a stream in both, the withdrawals reported between them (`taken`, from the events). | The streamed amount only grows (C02) and the log tells the recorded withdrawals (C56); the instruction level follows from C18, C19, C57. | PropWait |
| C77 | The client's tree helper (tests/merkle-instant/utils/merkle.ts) with the layer algorithm of merkletreejs it calls: leaf hashes, layers, odd nodes moved up, last matching leaf, sibling walk (MerkleClient.v). merkletreejs is not in /repo; its algorithm is modelled from knowledge of its source. | Refinement: a layer of hashes is the image of a layer of trees; one step of the walk is one constructor of `proof_of`; the rest follows from C34, C35. | MerkleClient, PropClient |
| C78 | Solana's legacy transaction format byte by byte, the account list of each instruction with its flags, the compute-limit instruction and the client helper that puts them together (Wire.v); instruction data from Borsh.v. | Bounds on the key table (its keys are the distinct keys of the account lists) and on the data; exact for claims with different accounts. | Wire, PropWire |
| C79 | The account lists of Wire.v and the account checks of every instruction; what a caller chooses is listed in `same_choices`. | Every other account is a function of the choices and the state: derived addresses and stored addresses by the checks, the NFT by the derivation of the stream's address (injective short of a hash collision), token programs by the owner of the mint. | PropSubst |
| C80 | `exec`, `balance`, the views; the bill is a list of signed amounts per account; `passed` for runs. | The final data map of each instruction (Step.v) looked up at every account; induction along runs. | PropTokens |
| C81 | `lockup_exec`, `merkle_exec`, the views, the `*_ready` records of the success theorems; `affordable` for money and room. | Success theorems one way; the other way the facts every accepted call gives (Inversion.v), the transfer inverted. | PropExact |
| C82 | `exec`, the requirement lists of C61 and C04, the `*_ready` records for arbitrary amounts. | The accounts phase succeeds and does not depend on the amount; the check then decides; the success theorems for the rest. | PropReason |
| C83 | Histories and their event log; the schedule of StreamSpec. | Induction over the history with the life of a stream (never canceled, or canceled once in a named world) as the invariant; the log theorem of C56 for the sums. | PropSettle |
| C84 | Histories, their Claim events, the trees of TreeSpec. | The claims and the claimed entries are the same list up to order (no repetition by C36, membership by C38, distinct positions); sums over permutations. | PropShares |
| C85 | Two calls from the same state with different callers. | Both effects are determined by the other accounts (the destination before is unique), the bills of C66 agree; success from the liveness theorems C19 and C39, their needs read off the first success. | PropCaller |
| C86 | The views and the clawback condition along forward histories. | Induction over the history (the terms never change, C43), C33 at each claim, persistence of the receipts (C67), C39 for the first claim. | PropPhase |
| C87 | Pairs of streams with shifted terms. | The schedule of the specification is invariant under the shift; the views are functions of it (StreamMath), the totals follow from C83. | PropShift |
| C88 | Histories with arbitrary token operations of others. | The holder named by a withdrawal (C10) is the only account with the NFT (C24); steps of others keep stream records (Facts); liveness from C19. | PropHolder |
| C89 | Pairs and lists of streams in arbitrary histories. | The schedule (C01) is monotone in its terms (the elapsed share by cross-multiplication); floors of a sum against the sum of floors, by induction on the list; whole lives by C83. | PropSplit |

No property of properties.jsonl is inexpressible in the model. Exact theorem names: MANIFEST.json.

## 4. Findings (claims a user would expect that are false of the code)

1. `has_grace_period_passed` (Merkle Instant view) passes the expiration time where the first claim time is meant: C42.
2. With a non-zero USD fee an oracle program that fails (for instance because the recorded feed is not its own), or an
   unlucky answer (price a multiple of 2^64, many decimals, large quotient), aborts every withdrawal or claim: C30. The
   code means to skip the fee when the call fails (`Err(_) => return 0`), but a failed invocation does not return to its
   caller on Solana; only an undecodable reply takes that branch. At the deployed fee 0 none of this can happen (proved).
3. Anyone can create the vault's associated token account beforehand and so block a (sender, salt) pair or a campaign
   identity for ever: C47.
4. The campaign's IPFS CID is not limited to 59 bytes: the true limits are |name| <= 32 and |name| + |cid| <= 91: C45.
5. Withdrawing "to the stream itself" succeeds, marks the amount as withdrawn and leaves the tokens in the vault: C09.
6. A first claim at clock 0 leaves `first_claim_time` at 0 (harmless in practice): C39.
7. `initialize` of either program is not reserved to the deployer: whoever calls it first, with enough lamports, fixes the
   fee collector and the oracle for ever: C59.
8. The message text of the error returned by `cancel` on a canceled stream (`StreamCanceled`, 6001) is "Can't renounce an
   already-renounced Stream!" (text only; C61 is about codes).
9. The sender of a stream does not sign its creation: anybody can create a stream (of one base unit) for somebody else as sender
   and so use up that sender's salt for ever: C68_salt_squatting.
10. A stream of a fee-on-transfer token records the nominal deposit although less arrived; the last part of it can never be
   withdrawn and withdraw_max is refused: C72_fee_token_is_underfunded. (SECURITY.md declares such tokens unsupported; the
   code does not reject them.)
11. A claim's proof is part of its transaction, so an entry more than 18 levels below the root (20 without a compute limit, 21
   if the claimer is also the recipient) cannot be claimed with the repository's client, although `create_campaign` accepts the
   root and the program the proof: C78_claim_too_long. Trees of the client's helper stay within the limit up to 2^18 entries.

## 5. Trusted base

* **Coq's kernel** (8.16.1; the build is also run through `coqchk` by the gate). `vm_compute` is used, `native_compute` is not.
* **Axioms**: none. `Print Assumptions` says "Closed under the global context" for every theorem listed in MANIFEST.json.
  `coqchk` additionally lists seven constants `Coq.ssr.ssrunder.*` of the standard library, which std++ loads and no
  theorem here uses.
* **The reading of /repo**: every definition of the model files cites file and lines.
* **Environment** (`env`, `env_ok` in History.v): the address-derivation hash, Keccak, the rent function, the program ids,
  Metaplex's fee for a metadata account, the token programs whose mints its master-edition instruction accepts, and the two fee settings are arbitrary, subject to: an address derived by a program is recognisable as such and is a 32-byte
  key; no address is derived by two of the four deriving programs; rent and fees are not negative; a transfer fee lies between
  0 and the transferred amount; the NFT mints that Lockup creates have no extensions.
* **Runtime and called programs** (World.v; not in /repo): System transfer and account creation, SPL Token / Token-2022
  `transfer_checked`, `mint_to`, `initialize_mint2`, Associated Token `Create`, Metaplex `create_metadata_accounts_v3`,
  `create_master_edition_v3`, `set_and_verify_sized_collection_item`, `sign_metadata`, Chainlink `latest_round_data` and
  `decimals` (each replies with an answer, with undecodable data, which the caller sees as an `Err`, or fails, which ends
  the transaction). Their behaviour is as written there.
* **Rely relation** (`others_step`, `genesis`, `signers_ok` in History.v): nobody signs for the programs' derived addresses;
  everybody else obeys the ownership rules above; a mint whose authority is a Metaplex-derived address can only be burned
  from; token balances are u64; the balances of an NFT mint do not exceed its supply; an associated token account keeps its
  mint, and a new one belongs to the owner it is derived for; before deployment none of the
  programs' accounts exist. C73 proves that runs of the concrete operations of `Outside.v` obey this relation, so it is
  trusted only as far as `Outside.v` describes those programs.
* **Collisions.** The address hash is an arbitrary function, and a real 32-byte hash of unbounded inputs has collisions. No
  theorem assumes there are none at large. Where one matters the theorem says "or" and exhibits the two colliding inputs, and
  they are inputs the history or the call itself evaluated (an owner an account had, an account that exists), so that such a
  case would be a break of the hash and not just its existence. `env_ok`'s "no address is derived by two programs" is to be
  read likewise, of the addresses that are ever evaluated.
* **Metaplex collection** (`collection_kept`, PropOpen.v; a premise of C58 only): the token-metadata program keeps the
  collection's metadata and edition records.
* **Clock**: most theorems allow any clock. `_fwd` theorems assume a clock that never runs backwards and stays in u64;
  C29 assumes it is below 2^32 (the code casts it to u32); C40's success direction assumes at most the i64 maximum.

### Modelled

All instructions (8 + 5) and all views (7 + 7) of the two programs, with every accounts constraint; all validations and
arithmetic; all state records with their byte formats; instruction data and dispatch; events and return data with
their byte formats; address seeds; NFT
name; USD fee conversion for every fee setting.

### Not modelled

* Of Token-2022: transfer hooks that change other accounts
  (`transfer_checked` is called without their extra accounts, so such transfers are refused), and balances that others change
  during a transfer. What remains are the functions `ext_transfer` (may depend on the mint, the two accounts, the clock
  and the amount) and `guarded` (extensions of the two token accounts themselves: required memo, CPI guard; may depend on the
  mint, the accounts and the clock, but not on what else is in the transaction). A mint is plain for a whole history or not at all (extensions are fixed when a mint is initialized; a mint
  address closed and reused with other extensions counts as not plain). Confidential balances are not counted in `t_amount`.
* Delegates, close authorities and the native mint are in `Outside.v` (C73) and not part of `world`: the two programs neither
  set nor read them.
* Wrapped SOL: `wlam` counts the lamports of such a token account beyond its token amount. The token programs keep one lamport
  per unit in the account and move both together, so the transfers of the two programs leave `wlam` as it is, and the
  statements about lamports (C32, C51, C62, C66, C70, C71 and others) are about the lamports that are not wrapped.
  `Outside.v` has wrapping (`OSync`) and unwrapping (`OClose`); the runtime's balance check in `Transaction.v` counts both
  kinds together. Simplified: lamports above the rent that somebody sent to the address of a wrapped-SOL account *before* it
  is created become tokens when it is created; in the model only when somebody calls `sync_native` next (anybody can). No
  instruction reads the amount of an account it creates, and the transfers that follow only add to it, so what happens on
  chain is the model's instruction followed at once by that `sync_native`: a history of the model, with the same events. The
  theorems about single instructions speak of the state before it.
* Multisig accounts of the token programs are not a separate kind of data: in `Outside.v` a "signer" may be a multisig whose
  quorum signed. The two programs only accept owners that sign the transaction themselves.
* Transaction size is modelled for the transactions of the client helper (C78): one instruction, legacy format.
* Compute budget, call depth, stack and heap limits, account locks, duplicate and expired transactions,
  durable nonces, upgrade authority and redeployment.
* The success theorems (C20, C23, C39, C40, C47, C58, C59 and others) are about single instructions. The runtime's own checks
  around them (writable flags, balance, rent states) are in `Transaction.v`; C74 says exactly when they let a transaction
  through. The runtime deletes accounts left without lamports. A transaction in which another program drains one of its own
  accounts without clearing it is written in the model with the deletion as a last operation (`OForeign k None`,
  `OMetaplex k None`); the token programs drain only accounts they close, and C74 proves that the two programs never leave
  data without lamports.
* Remaining accounts, reallocation, `close` (neither program uses them).
* The overflow check of `add_lamports` is not part of `move_lamports`; C70 proves that it never fires on a ledger in order.
  Lamports are not forced to be non-negative in an arbitrary world; the liveness premises (`can_receive`) say so where needed.
* Anchor's IDL instructions and its `emit_cpi`-style event instruction; the base64 log line around an event.
* The executable flag of accounts; program accounts fixed by their type (`Program<'info, T>`).
* The TypeScript of the repository (scripts, deployment tooling). Its unit tests are replayed in `RepoTests.v`.

## 6. Testing the theorems

`seeded/LOG.jsonl` records the mutants: the edited definition, the edit, the claim it breaks, the theorems that failed and
the theorems tightened. A mutant is applied to a scratch
copy, everything is rebuilt, and every statement whose proof no longer goes through is recorded (`theorems_failed`; the
failing proof is skipped so that the rest is still tried) together with the manifest theorems that rest on one of them
(`rests_on_failed`). A failing lemma alone does not show that the theorem above it is strong enough, so most hand-written
mutants (M and N) also have a probe, a concrete run in the scratch copy (`seeded/probes.txt`, Coq text): it evaluates to false on the
model and to true on the mutant, and true means that the instance of the theorem named in `statement_false_on_mutant` is
false, so that no proof of that theorem can exist for the mutant. The later batches (P to V) have no probe: there the
edit contradicts the English claim directly. Entries marked `equivalent` change no observable effect.
