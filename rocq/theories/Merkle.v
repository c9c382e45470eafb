(** The Merkle Instant program: every instruction and view (conventions as in Lockup.v). *)
From Verif Require Export Utf8 Lockup.

(** [ANCHOR_DISCRIMINATOR_SIZE + T::INIT_SPACE]: state/campaign.rs:6-20 with the string limits of
    utils/constants.rs:6-7 (59 + 4 and 32 + 4 bytes), state/claim_receipt.rs:3-6 *)
Definition CAMPAIGN_IPFS_CID_SIZE : Z := 59.
Definition CAMPAIGN_NAME_SIZE : Z := 32.
Definition CAMPAIGN_SPACE : Z :=
  8 + (32 + 1 + 8 + 32 + 8 + 8 + (4 + CAMPAIGN_IPFS_CID_SIZE) + 32 + (4 + CAMPAIGN_NAME_SIZE)).
Definition RECEIPT_SPACE : Z := 8 + 0.

(** Bytes needed to store a campaign (Borsh: strings are a 4-byte length and the bytes). *)
Definition campaign_size (c : campaign) : Z :=
  8 + 32 + 1 + 8 + 32 + 8 + 8 + (4 + Z.of_nat (length (c_ipfs c))) + Z.of_nat (length (c_root c))
  + (4 + Z.of_nat (length (c_name c))).

(** Seeds: instructions/create_campaign.rs:42-50, claim.rs:153-162, clawback.rs:90-99; claim.rs:81-85 *)
Definition campaign_seeds (creator : key) (root : bytes) (start expiration : Z) (name : bytes) (mintk : key)
    : list bytes :=
  [s_CAMPAIGN; key_bytes creator; root; le_bytes 8 start; le_bytes 8 expiration; name; key_bytes mintk].
Definition receipt_seeds (campaignk : key) (index : Z) : list bytes :=
  [s_CLAIM_RECEIPT; key_bytes campaignk; le_bytes 4 index].

(** ** Validations: utils/validations.rs *)

(** utils/validations.rs:78-82 *)
Definition has_campaign_started (now start_time : Z) : bool := start_time <=? now.
(** utils/validations.rs:85-89 *)
Definition has_expired (now expiration_time : Z) : bool :=
  (0 <? expiration_time) && (expiration_time <=? now).
(** [7 * 24 * 60 * 60], utils/validations.rs:94 *)
Definition GRACE_PERIOD : Z := 604800.
(** utils/validations.rs:92-97. [&&] is lazy, so the addition is only evaluated when the first operand holds. *)
Definition has_grace_period_passed (now first_claim_time : Z) : res bool :=
  if 0 <? first_claim_time then
    let! limit := u64_add first_claim_time GRACE_PERIOD in
    Ok (limit <? now)
  else Ok false.

(** [<=] of [u8; 32] arrays: lexicographic. *)
Fixpoint bytes_leb (x y : bytes) : bool :=
  match x, y with
  | [], _ => true
  | _ :: _, [] => false
  | a :: x', b :: y' => (a <? b) || ((a =? b) && bytes_leb x' y')
  end.

(** The proof loop, utils/validations.rs:40-48 ([keccak(&[a, b])] hashes the concatenation). *)
Definition merkle_step (E : env) (computed el : bytes) : bytes :=
  if bytes_leb computed el then keccak E (computed ++ el) else keccak E (el ++ computed).
Definition merkle_loop (E : env) (leaf : bytes) (proof : list bytes) : bytes :=
  fold_left (merkle_step E) proof leaf.

(** utils/validations.rs:25-34: double-hashed leaf. *)
Definition leaf_hash (E : env) (index recipient amount : Z) : bytes :=
  keccak E (keccak E (le_bytes 4 index ++ key_bytes recipient ++ le_bytes 8 amount)).

Definition bytes_eqb (x y : bytes) : bool := bool_decide (x = y).

(** [check_claim], utils/validations.rs:6-55 *)
Definition check_claim (E : env) (now amount start expiration index : Z) (proof : list bytes) (root : bytes)
    (recipient : key) : res unit :=
  if negb (has_campaign_started now start) then Err (EMerkle CampaignNotStarted)
  else if has_expired now expiration then Err (EMerkle CampaignExpired)
  else if negb (bytes_eqb (merkle_loop E (leaf_hash E index recipient amount) proof) root)
       then Err (EMerkle InvalidMerkleProof)
  else Ok tt.

(** [check_clawback], utils/validations.rs:58-65. [&&] is lazy. *)
Definition check_clawback (now expiration first_claim : Z) : res unit :=
  let! g := has_grace_period_passed now first_claim in
  if g && negb (has_expired now expiration) then Err (EMerkle ClawbackNotAllowed) else Ok tt.

(** [check_collect_fees], utils/validations.rs:68-75 *)
Definition m_check_collect_fees (collectible : Z) : res unit :=
  if collectible =? 0 then Err (EMerkle MCantCollectZeroFees) else Ok tt.

(** ** State updates *)

(** [Campaign::claim], state/campaign.rs:24-31 *)
Definition campaign_claim (c : campaign) (now : Z) : campaign :=
  if c_first_claim c =? 0
  then Campaign (c_mint c) (c_bump c) (c_start c) (c_creator c) (c_expiration c) now (c_ipfs c) (c_root c) (c_name c)
  else c.

(** ** Accounts structs *)

(** instructions/claim.rs:21-114 *)
Record claim_accs := ClaimAccs {
  la_claimer : key; la_recipient : key; la_recipient_ata : key; la_treasury : key; la_mint : key;
  la_campaign : key; la_vault : key; la_receipt : key; la_chainlink : key; la_feed : key; la_tp : tprog }.
(** instructions/clawback.rs:12-71 *)
Record clawback_accs := ClawbackAccs {
  ba_creator : key; ba_recipient : key; ba_recipient_ata : key; ba_mint : key; ba_campaign : key;
  ba_vault : key; ba_tp : tprog }.
(** instructions/create_campaign.rs:15-79 *)
Record campaign_accs := CampaignAccs {
  na_creator : key; na_mint : key; na_campaign : key; na_vault : key; na_tp : tprog }.
(** lib.rs create_campaign arguments (instructions/create_campaign.rs:83-92) *)
Record campaign_args := CampaignArgs {
  g_root : bytes; g_start : Z; g_expiration : Z; g_name : bytes; g_ipfs : bytes;
  g_aggregate : Z; g_recipient_count : Z }.

(** ** Instructions *)

(** instructions/initialize.rs:8-47 *)
Definition m_initialize (E : env) (sg : list key) (initializer treas fee_collector chainlink_program chainlink_feed : key)
    (w : world) : res (world * list event) :=
  let! _ := check_signer sg initializer in
  let! bump := check_seeds E PMerkle [s_TREASURY] treas in
  let! w := init_account E initializer treas TREASURY_SPACE (DMerkleTreasury (Treasury 0 0 0 0)) w in
  Ok (set_dat treas (DMerkleTreasury (Treasury bump fee_collector chainlink_program chainlink_feed)) w, []).

(** instructions/create_campaign.rs:15-121 with [Campaign::create], state/campaign.rs:35-56. The final
    check is Anchor's serialization into the allocated space at exit. [first_claim_time] is never assigned:
    it is 0 from account creation. *)
Definition create_campaign (E : env) (sg : list key) (a : campaign_accs) (g : campaign_args) (w : world)
    : res (world * list event) :=
  let! _ := check_signer sg (na_creator a) in
  let! m := load_mint w (na_mint a) in
  let! bump := check_seeds E PMerkle
      (campaign_seeds (na_creator a) (g_root g) (g_start g) (g_expiration g) (g_name g) (na_mint a)) (na_campaign a) in
  let! w := init_account E (na_creator a) (na_campaign a) CAMPAIGN_SPACE
      (DCampaign (Campaign 0 0 0 0 0 0 [] (repeat 0 32) [])) w in
  let! w := create_ata E (na_creator a) (na_vault a) (na_campaign a) (na_mint a) (na_tp a) w in
  let! _ := ensure (tprog_eqb (m_prog m) (na_tp a)) EConstraint in
  let c := Campaign (na_mint a) bump (g_start g) (na_creator a) (g_expiration g) 0 (g_ipfs g) (g_root g) (g_name g) in
  let! _ := ensure (campaign_size c <=? CAMPAIGN_SPACE) EAccount in
  Ok (set_dat (na_campaign a) (DCampaign c) w,
      [EvCreateCampaign (g_aggregate g) (na_campaign a) (g_name g) (g_start g) (na_creator a) (g_expiration g)
         (g_ipfs g) (g_root g) (g_recipient_count g) (m_decimals m) (na_mint a)]).

(** instructions/claim.rs *)
Definition claim (E : env) (sg : list key) (a : claim_accs) (index amount : Z) (proof : list bytes) (w : world)
    : res (world * list event) :=
  (* 1. loads *)
  let! _ := check_signer sg (la_claimer a) in
  let! tr := load_merkle_treasury w (la_treasury a) in
  let! m := load_mint w (la_mint a) in
  let! c := load_campaign w (la_campaign a) in
  let! vault := load_token w (la_vault a) in
  (* 2. init accounts *)
  let! w := init_ata_if_needed E (la_claimer a) (la_recipient_ata a) (la_recipient a) (la_mint a) (la_tp a) w in
  let! _ := check_seeds E PMerkle (receipt_seeds (la_campaign a) index) (la_receipt a) in
  let! w := init_account E (la_claimer a) (la_receipt a) RECEIPT_SPACE DClaimReceipt w in
  (* 3. constraints *)
  let! _ := check_seeds_bump E PMerkle [s_TREASURY] (tr_bump tr) (la_treasury a) in
  let! _ := check_address (la_mint a) (c_mint c) in
  let! _ := check_ata E (la_vault a) vault (la_campaign a) (la_mint a) (la_tp a) in
  let! _ := check_address (la_chainlink a) (tr_chainlink_program tr) in
  let! _ := check_address (la_feed a) (tr_chainlink_feed tr) in
  (* handler, :117-177 *)
  let now := get_current_time w in
  let! _ := check_claim E now amount (c_start c) (c_expiration c) index proof (c_root c) (la_recipient a) in
  let w := set_dat (la_campaign a) (DCampaign (campaign_claim c now)) w in
  let! (w, fee) := charge_fee (claim_fee_usd E) (la_chainlink a) (la_feed a) (la_claimer a) (la_treasury a) w in
  let! w := transfer_checked E (la_tp a) (la_vault a) (la_recipient_ata a) (la_campaign a)
      (bool_decide (create_program_address E PMerkle
         (campaign_seeds (c_creator c) (c_root c) (c_start c) (c_expiration c) (c_name c) (la_mint a)) (c_bump c)
         = Some (la_campaign a)))
      (la_mint a) amount (m_decimals m) w in
  Ok (w, [EvClaim amount (la_campaign a) (la_claimer a) (la_receipt a) fee index (la_recipient a)]).

(** instructions/clawback.rs *)
Definition clawback (E : env) (sg : list key) (a : clawback_accs) (amount : Z) (w : world) : res (world * list event) :=
  (* 1. loads *)
  let! _ := check_signer sg (ba_creator a) in
  let! m := load_mint w (ba_mint a) in
  let! c := load_campaign w (ba_campaign a) in
  let! vault := load_token w (ba_vault a) in
  (* 2. init_if_needed *)
  let! w := init_ata_if_needed E (ba_creator a) (ba_recipient_ata a) (ba_recipient a) (ba_mint a) (ba_tp a) w in
  (* 3. constraints *)
  let! _ := check_address (ba_creator a) (c_creator c) in
  let! _ := check_address (ba_mint a) (c_mint c) in
  let! _ := check_ata E (ba_vault a) vault (ba_campaign a) (ba_mint a) (ba_tp a) in
  (* handler, :74-111 *)
  let! _ := check_clawback (get_current_time w) (c_expiration c) (c_first_claim c) in
  let! w := transfer_checked E (ba_tp a) (ba_vault a) (ba_recipient_ata a) (ba_campaign a)
      (bool_decide (create_program_address E PMerkle
         (campaign_seeds (c_creator c) (c_root c) (c_start c) (c_expiration c) (c_name c) (ba_mint a)) (c_bump c)
         = Some (ba_campaign a)))
      (ba_mint a) amount (m_decimals m) w in
  Ok (w, [EvClawback amount (ba_campaign a) (ba_creator a) (ba_recipient a)]).

(** instructions/collect_fees.rs:8-54 *)
Definition merkle_collect_fees (E : env) (sg : list key) (a : collect_accs) (w : world) : res (world * list event) :=
  let! _ := check_signer sg (fa_collector a) in
  let! tr := load_merkle_treasury w (fa_treasury a) in
  let! _ := check_address (fa_collector a) (tr_fee_collector tr) in
  let! _ := check_seeds_bump E PMerkle [s_TREASURY] (tr_bump tr) (fa_treasury a) in
  let! collectible := safe_collectible_amount E (fa_treasury a) w in
  let! _ := m_check_collect_fees collectible in
  let! w := move_lamports (fa_treasury a) (fa_recipient a) collectible w in
  Ok (w, [EvMerkleFees collectible (fa_collector a) (fa_recipient a)]).

(** ** Instruction dispatch: lib.rs:52-174 *)
Inductive merkle_ix :=
| MInitialize (initializer treas fee_collector chainlink_program chainlink_feed : key)
| MCreateCampaign (a : campaign_accs) (g : campaign_args)
| MClaim (a : claim_accs) (index amount : Z) (proof : list bytes)
| MClawback (a : clawback_accs) (amount : Z)
| MCollectFees (a : collect_accs).

Definition is_hash (b : bytes) : bool := (Z.of_nat (length b) =? 32) && forallb is_byte b.
(** A Rust [String]: UTF-8. *)
Definition is_string (b : bytes) : bool := is_u32 (Z.of_nat (length b)) && forallb is_byte b && utf8_valid b.

(** Arguments arrive as bytes: integers in range, keys and hashes of 32 bytes, strings of UTF-8 (derived from the byte format in PropBorsh.v, C50). *)
Definition merkle_ix_ok (ix : merkle_ix) : bool :=
  match ix with
  | MInitialize i t f p c => forallb is_key [i; t; f; p; c]
  | MCreateCampaign a g =>
      forallb is_key [na_creator a; na_mint a; na_campaign a; na_vault a]
      && is_hash (g_root g) && forallb is_u64 [g_start g; g_expiration g; g_aggregate g]
      && is_string (g_name g) && is_string (g_ipfs g) && is_u32 (g_recipient_count g)
  | MClaim a index amount proof =>
      forallb is_key [la_claimer a; la_recipient a; la_recipient_ata a; la_treasury a; la_mint a;
        la_campaign a; la_vault a; la_receipt a; la_chainlink a; la_feed a]
      && is_u32 index && is_u64 amount && forallb is_hash proof
  | MClawback a amount =>
      forallb is_key [ba_creator a; ba_recipient a; ba_recipient_ata a; ba_mint a; ba_campaign a; ba_vault a]
      && is_u64 amount
  | MCollectFees a => collect_accs_ok a
  end.

Definition merkle_exec (E : env) (sg : list key) (ix : merkle_ix) (w : world) : res (world * list event) :=
  let! _ := ensure (merkle_ix_ok ix) EDecode in
  match ix with
  | MInitialize i t f p c => m_initialize E sg i t f p c w
  | MCreateCampaign a g => create_campaign E sg a g w
  | MClaim a index amount proof => claim E sg a index amount proof w
  | MClawback a amount => clawback E sg a amount w
  | MCollectFees a => merkle_collect_fees E sg a w
  end.

(** ** Views *)

(** lib.rs [campaign_view], instructions/view/campaign_view.rs:6-13 *)
Definition campaign_view (k : key) (w : world) : res campaign := load_campaign w k.
(** lib.rs [has_claimed], instructions/view/has_claimed.rs:5-25 *)
Definition has_claimed (E : env) (campaignk receipt : key) (index : Z) (w : world) : res bool :=
  let! _ := load_campaign w campaignk in
  let! _ := check_seeds E PMerkle (receipt_seeds campaignk index) receipt in
  Ok (match wdat w !! receipt with Some _ => true | None => false end).
(** instructions/view/has_expired.rs:7-9 *)
Definition has_expired_view (k : key) (w : world) : res bool :=
  let! c := load_campaign w k in Ok (has_expired (get_current_time w) (c_expiration c)).
(** instructions/view/has_campaign_started.rs:7-9 *)
Definition has_campaign_started_view (k : key) (w : world) : res bool :=
  let! c := load_campaign w k in Ok (has_campaign_started (get_current_time w) (c_start c)).
(** instructions/view/has_grace_period_passed.rs:7-9: passes [expiration_time] where
    [first_claim_time] is meant; modelled as written. *)
Definition has_grace_period_passed_view (k : key) (w : world) : res bool :=
  let! c := load_campaign w k in has_grace_period_passed (get_current_time w) (c_expiration c).
(** lib.rs [treasury_view], instructions/view/treasury_view.rs:5-16 *)
Definition merkle_treasury_view (E : env) (k : key) (w : world) : res treasury :=
  let! tr := load_merkle_treasury w k in
  let! _ := check_seeds_bump E PMerkle [s_TREASURY] (tr_bump tr) k in
  Ok tr.
(** instructions/view/claim_fee_in_lamports.rs:11-39 *)
Definition claim_fee_in_lamports (E : env) (treas chainlink feed : key) (w : world) : res Z :=
  let! tr := load_merkle_treasury w treas in
  let! _ := check_seeds_bump E PMerkle [s_TREASURY] (tr_bump tr) treas in
  let! _ := check_address chainlink (tr_chainlink_program tr) in
  let! _ := check_address feed (tr_chainlink_feed tr) in
  convert_usd_fee_to_lamports (claim_fee_usd E) chainlink feed w.
