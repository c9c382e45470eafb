(** The Solana world the two programs run in: accounts, address derivation, and the effects of the
    called programs (System, SPL Token / Token-2022, Associated Token, Metaplex Token Metadata),
    plus Anchor's account loading and constraints. The called programs are not part of /repo; this
    file is the assumed behaviour recorded in the trusted base. *)
From Verif Require Export LockupMath.

(** ** Programs *)

(** The four programs that derive addresses in this codebase. *)
Inductive program := PLockup | PMerkle | PAssocToken | PMetadata.
Global Instance program_eq_dec : EqDecision program.
Proof. solve_decision. Defined.

(** [Interface<'info, TokenInterface>] admits exactly these two token programs. *)
Inductive tprog := SplToken | Token2022.
Global Instance tprog_eq_dec : EqDecision tprog.
Proof. solve_decision. Defined.
Definition tprog_eqb (a b : tprog) : bool := bool_decide (a = b).

(** ** What the model does not compute: an arbitrary environment.
    [pda_hash p bs]: [create_program_address]'s SHA-256 of the concatenated seeds (bump included) for
    deriving program [p]; [None] when the result lies on the ed25519 curve.
    [pda_of p k]: [k] is an address derived by program [p] (only [p] can sign for it).
    [keccak]: the hash used by Merkle Instant. [rent_min n]: [Rent::minimum_balance(n)].
    [md_fee]: what Metaplex charges for a metadata account (at present 0.01 SOL), on top of its rent.
    [md_accepts]: the token programs whose mints Metaplex's master-edition instruction accepts.
    [withdrawal_fee_usd], [claim_fee_usd]: the compile-time fee settings. At this commit both are 0
    (Fee.v, [deployed_fees]); they are kept as parameters so that the theorems also cover other settings.
    [plain m]: the mint at address [m] is an SPL Token mint or a Token-2022 mint without extensions.
    For the other mints, [ext_transfer m from to t n] is what the extensions make of a transfer of [n]
    at time [t]: [None] if they refuse it (transfer hook, non-transferable, paused, ...), [Some f] if the
    amount [f] is withheld from the receiver (transfer fee); [ext_space m]: the bytes that the
    extensions add to a token account.
    [guarded m from to t]: an extension of one of the two token accounts (required memo, CPI guard)
    refuses a transfer from [from] to [to] that a program makes at time [t]; this is possible for plain
    Token-2022 mints too, and never the case for SPL Token accounts. *)
Record env := Env {
  pda_hash : program -> bytes -> option key;
  pda_of : program -> key -> bool;
  keccak : bytes -> bytes;
  rent_min : Z -> Z;
  tprog_id : tprog -> key;
  metadata_program_id : key;
  md_fee : Z;
  md_accepts : tprog -> bool;
  withdrawal_fee_usd : Z;
  claim_fee_usd : Z;
  plain : key -> bool;
  ext_transfer : key -> key -> key -> Z -> Z -> option Z;
  ext_space : key -> Z;
  guarded : key -> key -> key -> Z -> bool }.

(** ** Accounts *)

(** Fields of an SPL mint that matter here. *)
Record mint := Mint {
  m_prog : tprog;              (* the owning token program *)
  m_supply : Z; m_decimals : Z;
  m_authority : option key; m_freeze : option key }.

(** Fields of an SPL token account that matter here. *)
Record tokacc := TokAcc {
  t_prog : tprog; t_mint : key; t_owner : key; t_amount : Z; t_frozen : bool }.

(** programs/lockup/src/state/treasury.rs:3-10 and programs/merkle_instant/src/state/treasury.rs:3-10 *)
Record treasury := Treasury {
  tr_bump : Z; tr_fee_collector : key; tr_chainlink_program : key; tr_chainlink_feed : key }.

(** programs/lockup/src/state/nft_collection_data.rs:3-8 *)
Record nft_collection := NftCollection { nc_total_supply : Z; nc_bump : Z }.

(** programs/merkle_instant/src/state/campaign.rs:6-20 *)
Record campaign := Campaign {
  c_mint : key;                (* airdrop_token_mint *)
  c_bump : Z;
  c_start : Z;                 (* campaign_start_time *)
  c_creator : key;
  c_expiration : Z;            (* expiration_time *)
  c_first_claim : Z;           (* first_claim_time *)
  c_ipfs : bytes;              (* ipfs_cid *)
  c_root : bytes;              (* merkle_root *)
  c_name : bytes }.

(** What [chainlink_solana::latest_round_data] returns (the fields the code reads). *)
Record round := Round { r_answer : Z; r_timestamp : Z }.

(** What comes of a query of [chainlink_solana] (a dependency, not in /repo): it invokes the oracle program, takes the
    return data and decodes them. Data that do not decode are an [Err] the caller sees; a failing invocation (or missing
    return data) ends the transaction there and then, as on Solana a caller never regains control from a failed
    invocation. *)
Inductive reply (A : Type) := Answers (a : A) | Undecodable | Fails.
Global Arguments Answers {A}.
Global Arguments Undecodable {A}.
Global Arguments Fails {A}.

(** Account data by type. The constructor stands for owner program + discriminator, which is what
    Anchor checks when it loads [Account<'info, T>]. An address without data ([None] in the data
    map) is owned by the System program. *)
Inductive adata :=
| DStream (s : stream_data)                    (* owned by Lockup *)
| DLockupTreasury (t : treasury)               (* owned by Lockup *)
| DNftCollection (n : nft_collection)          (* owned by Lockup *)
| DCampaign (c : campaign)                     (* owned by Merkle Instant *)
| DClaimReceipt                                (* owned by Merkle Instant; state/claim_receipt.rs:3-6 *)
| DMerkleTreasury (t : treasury)               (* owned by Merkle Instant *)
| DMint (m : mint)                             (* owned by a token program *)
| DToken (t : tokacc)                          (* owned by a token program *)
| DMetadata (m : key) (update_authority : key) (name : bytes) (collection : option key) (size : option Z)
    (signed : bool)                            (* owned by Metaplex *)
| DEdition (m : key)                           (* owned by Metaplex *)
| DFeed (owner : key) (r : reply round) (decimals : reply Z)    (* oracle feed: what its program replies for it *)
| DOther.                                      (* anything else with data *)

(** [wlam] counts the lamports of an account; for a token account of wrapped SOL those beyond its token amount (the token
    programs keep one lamport per unit in the account and move both together, so that a transfer does not change [wlam]). *)
Record world := World {
  wlam : gmap key Z;           (* lamports; absent = 0 *)
  wdat : gmap key adata;       (* data; absent = system account without data *)
  wclock : Z }.                (* Clock::unix_timestamp, an i64 *)

Definition lam (w : world) (k : key) : Z := default 0 (wlam w !! k).
Definition set_lam (k : key) (z : Z) (w : world) : world :=
  World (<[k := z]> (wlam w)) (wdat w) (wclock w).
Definition set_dat (k : key) (d : adata) (w : world) : world :=
  World (wlam w) (<[k := d]> (wdat w)) (wclock w).

(** programs/lockup/src/utils/time.rs:4-6, programs/merkle_instant/src/utils/time.rs:4-6:
    [unix_timestamp as u64]. *)
Definition get_current_time (w : world) : Z := as_u64 (wclock w).

(** ** Program-derived addresses *)

(** [Pubkey::create_program_address]: at most 16 seeds (bump included) of at most 32 bytes each;
    the seeds are hashed concatenated. *)
Definition create_program_address (E : env) (p : program) (seeds : list bytes) (bump : Z) : option key :=
  if forallb (fun s => Z.of_nat (length s) <=? 32) seeds && (Z.of_nat (length seeds) <? 16)
  then pda_hash E p (List.concat seeds ++ [bump]) else None.

Fixpoint find_bump (E : env) (p : program) (seeds : list bytes) (n : nat) : option (key * Z) :=
  match n with
  | O => None
  | S n' => match create_program_address E p seeds (Z.of_nat n) with
            | Some k => Some (k, Z.of_nat n)
            | None => find_bump E p seeds n'
            end
  end.

(** [Pubkey::find_program_address]: bumps 255 down to 1; a panic if there is none. *)
Definition find_program_address (E : env) (p : program) (seeds : list bytes) : res (key * Z) :=
  of_option (find_bump E p seeds 255) EPanic.

(** [get_associated_token_address_with_program_id] *)
Definition ata_seeds (E : env) (owner mintk : key) (tp : tprog) : list bytes :=
  [key_bytes owner; key_bytes (tprog_id E tp); key_bytes mintk].
Definition ata_address (E : env) (owner mintk : key) (tp : tprog) : res key :=
  let! r := find_program_address E PAssocToken (ata_seeds E owner mintk tp) in Ok (fst r).

(** ** Account loading (Anchor [try_accounts] of non-init fields) *)

Definition load_stream (w : world) (k : key) : res stream_data :=
  match wdat w !! k with Some (DStream s) => Ok s | _ => Err EAccount end.
Definition load_lockup_treasury (w : world) (k : key) : res treasury :=
  match wdat w !! k with Some (DLockupTreasury t) => Ok t | _ => Err EAccount end.
Definition load_nft_collection (w : world) (k : key) : res nft_collection :=
  match wdat w !! k with Some (DNftCollection n) => Ok n | _ => Err EAccount end.
Definition load_campaign (w : world) (k : key) : res campaign :=
  match wdat w !! k with Some (DCampaign c) => Ok c | _ => Err EAccount end.
Definition load_merkle_treasury (w : world) (k : key) : res treasury :=
  match wdat w !! k with Some (DMerkleTreasury t) => Ok t | _ => Err EAccount end.
Definition load_mint (w : world) (k : key) : res mint :=
  match wdat w !! k with Some (DMint m) => Ok m | _ => Err EAccount end.
Definition load_token (w : world) (k : key) : res tokacc :=
  match wdat w !! k with Some (DToken t) => Ok t | _ => Err EAccount end.

(** [Signer<'info>] *)
Definition check_signer (sg : list key) (k : key) : res unit :=
  ensure (bool_decide (k ∈ sg)) ESigner.

(** [#[account(address = x)]] *)
Definition check_address (k x : key) : res unit := ensure (k =? x) EConstraint.

(** [#[account(seeds = .., bump = b)]] *)
Definition check_seeds_bump (E : env) (p : program) (seeds : list bytes) (bump : Z) (k : key) : res unit :=
  ensure (bool_decide (create_program_address E p seeds bump = Some k)) EConstraint.

(** [#[account(seeds = .., bump)]]: returns the canonical bump. *)
Definition check_seeds (E : env) (p : program) (seeds : list bytes) (k : key) : res Z :=
  let! r := find_program_address E p seeds in
  let! _ := ensure (fst r =? k) EConstraint in
  Ok (snd r).

(** [#[account(associated_token::mint = .., authority = .., token_program = ..)]] on an existing
    account (Anchor 0.31.1, generate_constraint_associated_token): owner program, authority, address. *)
Definition check_ata (E : env) (k : key) (t : tokacc) (owner mintk : key) (tp : tprog) : res unit :=
  let! _ := ensure (tprog_eqb (t_prog t) tp) EConstraint in
  let! _ := ensure (t_owner t =? owner) EConstraint in
  let! a := ata_address E owner mintk tp in
  ensure (k =? a) EConstraint.

(** ** System program *)

(** [system_instruction::transfer]; the source must be a system account. [n] is positive. *)
Definition system_transfer (from to : key) (n : Z) (w : world) : res world :=
  match wdat w !! from with
  | Some _ => Err ECpi
  | None =>
      if lam w from <? n then Err ECpi
      else
        let w1 := set_lam from (lam w from - n) w in
        Ok (set_lam to (lam w1 to + n) w1)
  end.

(** Anchor [init]: the address must be a system account without data; the payer funds it up to the
    rent minimum; the data is allocated and assigned. *)
Definition init_account (E : env) (payer k : key) (space : Z) (d : adata) (w : world) : res world :=
  match wdat w !! k with
  | Some _ => Err ECpi
  | None =>
      let! _ := ensure (negb (payer =? k)) EConstraint in
      let need := if lam w k =? 0 then rent_min E space
                  else Z.max 0 (Z.max (rent_min E space) 1 - lam w k) in
      let! w1 := (if 0 <? need then system_transfer payer k need w else Ok w) in
      Ok (set_dat k d w1)
  end.

(** The same for a caller that pays a fixed amount [n]. *)
Definition fund_account (payer k : key) (n : Z) (d : adata) (w : world) : res world :=
  match wdat w !! k with
  | Some _ => Err ECpi
  | None =>
      let! _ := ensure (negb (payer =? k)) EConstraint in
      let! w1 := (if 0 <? n then system_transfer payer k n w else Ok w) in
      Ok (set_dat k d w1)
  end.

(** ** Token programs *)

(** Account sizes: SPL token account 165 bytes; Token-2022 ATAs carry ImmutableOwner (170 bytes) and what
    the mint's extensions require; mint 82. *)
Definition ata_space (E : env) (mintk : key) (tp : tprog) : Z :=
  match tp with SplToken => 165 | Token2022 => if plain E mintk then 170 else 170 + ext_space E mintk end.
Definition MINT_SPACE : Z := 82.

(** Associated Token program [Create]: derives the address, requires the mint to belong to the token
    program, and requires the account not to exist. Simplified for wrapped SOL: lamports above the rent that
    somebody had sent to the address count as tokens at once; here they do after the next [sync_native]. *)
Definition create_ata (E : env) (payer k owner mintk : key) (tp : tprog) (w : world) : res world :=
  let! a := ata_address E owner mintk tp in
  let! _ := ensure (k =? a) ECpi in
  let! m := load_mint w mintk in
  let! _ := ensure (tprog_eqb (m_prog m) tp) ECpi in
  init_account E payer k (ata_space E mintk tp) (DToken (TokAcc tp mintk owner 0 false)) w.

(** Anchor [init_if_needed] on an associated token account. *)
Definition init_ata_if_needed (E : env) (payer k owner mintk : key) (tp : tprog) (w : world) : res world :=
  match wdat w !! k with
  | None => create_ata E payer k owner mintk tp w
  | Some (DToken t) =>
      let! _ := ensure (t_mint t =? mintk) EConstraint in
      let! _ := ensure (t_owner t =? owner) EConstraint in
      let! _ := ensure (tprog_eqb (t_prog t) tp) EConstraint in
      let! a := ata_address E owner mintk tp in
      let! _ := ensure (k =? a) EConstraint in
      Ok w
  | Some _ => Err EAccount
  end.

Definition with_amount (t : tokacc) (n : Z) : tokacc :=
  TokAcc (t_prog t) (t_mint t) (t_owner t) n (t_frozen t).

(** What is withheld from a transfer of [n] at time [t]; [None]: the transfer is refused. *)
Definition mint_withholds (E : env) (mintk from to : key) (t n : Z) : option Z :=
  if plain E mintk then Some 0 else ext_transfer E mintk from to t n.
Definition withheld (E : env) (mintk from to : key) (t n : Z) : option Z :=
  if guarded E mintk from to t then None else mint_withholds E mintk from to t n.
(** What arrives. *)
Definition received (E : env) (mintk from to : key) (t n : Z) : Z := n - default 0 (withheld E mintk from to t n).

(** [transfer_checked] of the token program [tp] (programs/*/src/utils/transfer_helper.rs:6-30 is a
    plain call of it). [signed]: the authority signed, directly or through the caller's seeds.
    Delegates are not modelled: no handler passes one. A transfer to the same account succeeds and
    changes nothing. *)
Definition transfer_checked (E : env) (tp : tprog) (from to auth : key) (signed : bool) (mintk : key)
    (amount decimals : Z) (w : world) : res world :=
  let! tf := load_token w from in
  let! m := load_mint w mintk in
  let! td := load_token w to in
  let! _ := ensure (tprog_eqb (t_prog tf) tp && tprog_eqb (t_prog td) tp && tprog_eqb (m_prog m) tp) ECpi in
  let! _ := ensure (negb (t_frozen tf) && negb (t_frozen td)) ECpi in
  let! _ := ensure (amount <=? t_amount tf) ECpi in
  let! _ := ensure ((t_mint tf =? mintk) && (t_mint td =? mintk)) ECpi in
  let! _ := ensure (decimals =? m_decimals m) ECpi in
  let! _ := ensure ((t_owner tf =? auth) && signed) ECpi in
  let! fee := of_option (withheld E mintk from to (wclock w) amount) ECpi in
  if from =? to then Ok w
  else
    let! _ := ensure (t_amount td + (amount - fee) <=? U64_MAX) ECpi in
    Ok (set_dat to (DToken (with_amount td (t_amount td + (amount - fee))))
         (set_dat from (DToken (with_amount tf (t_amount tf - amount))) w)).

(** Anchor [init] of a mint: allocate and [initialize_mint2]. *)
Definition create_mint (E : env) (payer k : key) (tp : tprog) (decimals : Z) (auth freeze : key)
    (w : world) : res world :=
  init_account E payer k MINT_SPACE (DMint (Mint tp 0 decimals (Some auth) (Some freeze))) w.

(** [mint_to] *)
Definition mint_to (tp : tprog) (mintk to auth : key) (signed : bool) (amount : Z) (w : world) : res world :=
  let! m := load_mint w mintk in
  let! t := load_token w to in
  let! _ := ensure (tprog_eqb (m_prog m) tp && tprog_eqb (t_prog t) tp) ECpi in
  let! _ := ensure (negb (t_frozen t)) ECpi in
  let! _ := ensure (t_mint t =? mintk) ECpi in
  let! _ := ensure (bool_decide (m_authority m = Some auth) && signed) ECpi in
  let! _ := ensure (m_supply m + amount <=? U64_MAX) ECpi in
  let! _ := ensure (t_amount t + amount <=? U64_MAX) ECpi in
  Ok (set_dat to (DToken (with_amount t (t_amount t + amount)))
       (set_dat mintk (DMint (Mint (m_prog m) (m_supply m + amount) (m_decimals m)
                                   (m_authority m) (m_freeze m))) w)).

(** ** Metaplex Token Metadata *)

Definition metadata_seeds (E : env) (m : key) : list bytes :=
  [s_METADATA; key_bytes (metadata_program_id E); key_bytes m].
Definition edition_seeds (E : env) (m : key) : list bytes :=
  [s_METADATA; key_bytes (metadata_program_id E); key_bytes m; s_EDITION].

(** Sizes of the Metaplex accounts (only their rent matters). *)
Definition METADATA_SPACE : Z := 607.
Definition EDITION_SPACE : Z := 282.

(** [create_metadata_accounts_v3]: the mint authority signs; the metadata account is the metadata PDA
    and must be new; name, symbol and URI are limited to 32, 10 and 200 bytes (symbol and URI are
    constants of the caller and not stored in the model). Metaplex first takes its fee together with the rent of
    the account, whatever the account holds already, so that nothing is left to pay when the account is
    allocated; the fee stays in the metadata account until Metaplex collects it. *)
Definition create_metadata (E : env) (payer md mintk auth : key) (signed : bool)
    (name symbol uri : bytes) (size : option Z) (w : world) : res world :=
  let! _ := ensure ((Z.of_nat (length name) <=? 32) && (Z.of_nat (length symbol) <=? 10)
                    && (Z.of_nat (length uri) <=? 200)) ECpi in
  let! m := load_mint w mintk in
  let! _ := check_seeds E PMetadata (metadata_seeds E mintk) md in
  let! _ := ensure (bool_decide (m_authority m = Some auth) && signed) ECpi in
  fund_account payer md (rent_min E METADATA_SPACE + md_fee E) (DMetadata mintk auth name None size false) w.

(** [create_master_edition_v3] with max supply 0: requires a mint of a token program that Metaplex accepts (this
    old instruction is given the address of the SPL Token program, so it may refuse Token-2022 mints),
    supply 1 and 0 decimals, and hands mint and freeze authority to the edition account, so that no further token can be minted. *)
Definition create_master_edition (E : env) (payer ed md mintk auth : key) (signed : bool)
    (w : world) : res world :=
  let! m := load_mint w mintk in
  let! _ := check_seeds E PMetadata (edition_seeds E mintk) ed in
  let! _ := ensure (bool_decide (m_authority m = Some auth) && signed) ECpi in
  let! _ := ensure ((m_supply m =? 1) && (m_decimals m =? 0) && md_accepts E (m_prog m)) ECpi in
  let! _ := (match wdat w !! md with
             | Some (DMetadata m' ua _ _ _ _) => ensure ((m' =? mintk) && (ua =? auth)) ECpi
             | _ => Err ECpi end) in
  let! w1 := init_account E payer ed EDITION_SPACE (DEdition mintk) w in
  Ok (set_dat mintk (DMint (Mint (m_prog m) (m_supply m) (m_decimals m) (Some ed)
        (match m_freeze m with Some _ => Some ed | None => None end))) w1).

(** [set_and_verify_sized_collection_item] *)
Definition set_and_verify_collection (E : env) (md auth collm collmd colled : key) (signed : bool)
    (w : world) : res world :=
  match wdat w !! md, wdat w !! collmd, wdat w !! colled with
  | Some (DMetadata m ua nm None sz sgn), Some (DMetadata cm cua cnm ccol (Some csz) csgn), Some (DEdition em) =>
      let! _ := ensure ((ua =? auth) && (cua =? auth) && (cm =? collm) && (em =? collm) && signed) ECpi in
      Ok (set_dat collmd (DMetadata cm cua cnm ccol (Some (csz + 1)) csgn)
           (set_dat md (DMetadata m ua nm (Some collm) sz sgn) w))
  | _, _, _ => Err ECpi
  end.

(** [sign_metadata] *)
Definition sign_metadata (md : key) (signed : bool) (w : world) : res world :=
  match wdat w !! md with
  | Some (DMetadata m ua nm c sz _) =>
      let! _ := ensure signed ECpi in
      Ok (set_dat md (DMetadata m ua nm c sz true) w)
  | _ => Err ECpi
  end.

(** ** Events of both programs *)
Inductive event :=
(* programs/lockup/src/utils/events.rs:3-48 *)
| EvCreateStream (salt decimals mintk recipient stream nft : Z)
| EvCancel (mintk recipient_amount sender_amount stream nft : Z)
| EvRenounce (mintk stream nft : Z)
| EvWithdraw (mintk fee stream nft amount : Z)
| EvLockupFees (amount collector recipient : Z)
(* programs/merkle_instant/src/utils/events.rs:3-46 *)
| EvClaim (amount campaign claimer receipt fee index recipient : Z)
| EvClawback (amount campaign creator recipient : Z)
| EvCreateCampaign (aggregate campaign : Z) (name : bytes) (start creator expiration : Z) (ipfs root : bytes)
    (recipient_count decimals mintk : Z)
| EvMerkleFees (amount collector recipient : Z).

(** ** Oracle *)

(** [chainlink::latest_round_data(program, feed)] and [chainlink::decimals(program, feed)]:
    the feed account must belong to the passed program, or that program fails. *)
Definition latest_round_data (w : world) (prog feed : key) : reply round :=
  match wdat w !! feed with
  | Some (DFeed o r _) => if o =? prog then r else Fails
  | _ => Fails end.
Definition oracle_decimals (w : world) (prog feed : key) : reply Z :=
  match wdat w !! feed with
  | Some (DFeed o _ d) => if o =? prog then d else Fails
  | _ => Fails end.
