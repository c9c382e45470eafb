(** The Lockup program: every instruction and view, accounts struct by accounts struct.
    Anchor's order is kept: (1) load the non-init accounts and check signers, (2) create the [init]
    accounts, (3) check the constraints of the non-init accounts, then run the handler. Accounts held in
    memory are written back when the handler ends; no called program reads them in between, so the model
    writes them at the handler's "Effect" line. Program accounts other than the token programs are fixed
    by their type ([Program<'info, T>]) and do not appear; [Interface<'info, TokenInterface>] is [tprog]. *)
From Verif Require Export Fee.

(** [ANCHOR_DISCRIMINATOR_SIZE + T::INIT_SPACE]: state/lockup.rs:12-32, state/nft_collection_data.rs:3-8 *)
Definition STREAM_SPACE : Z := 8 + 148.
Definition NFT_COLLECTION_SPACE : Z := 8 + 9.

(** Seeds: instructions/create_with_timestamps.rs:103-107, :131 *)
Definition nft_mint_seeds (sender salt : Z) : list bytes :=
  [s_STREAM_NFT_MINT; key_bytes sender; le_bytes 16 salt].
Definition stream_seeds (nft_mint : key) : list bytes := [s_STREAM_DATA; key_bytes nft_mint].

(** ** Accounts structs *)

(** instructions/initialize.rs:18-124 *)
Record initialize_accs := InitializeAccs {
  ia_initializer : key; ia_treasury : key; ia_nft_collection_data : key;
  ia_edition : key; ia_metadata : key; ia_mint : key; ia_ata : key; ia_nft_tp : tprog }.

(** instructions/create_with_timestamps.rs:19-197 *)
Record create_accs := CreateAccs {
  ca_creator : key; ca_creator_ata : key; ca_recipient : key; ca_sender : key;
  ca_nft_collection_data : key; ca_coll_edition : key; ca_coll_metadata : key; ca_coll_mint : key;
  ca_deposit_mint : key; ca_nft_mint : key; ca_recipient_nft_ata : key; ca_stream : key;
  ca_vault : key; ca_edition : key; ca_metadata : key;
  ca_deposit_tp : tprog; ca_nft_tp : tprog }.

(** instructions/withdraw.rs:22-134 *)
Record withdraw_accs := WithdrawAccs {
  wa_signer : key; wa_stream_recipient : key; wa_withdrawal_recipient : key; wa_dest : key;
  wa_treasury : key; wa_mint : key; wa_nft_ata : key; wa_stream : key; wa_vault : key; wa_nft_mint : key;
  wa_chainlink : key; wa_feed : key; wa_tp : tprog; wa_nft_tp : tprog }.

(** instructions/cancel.rs:15-81 *)
Record cancel_accs := CancelAccs {
  xa_sender : key; xa_sender_ata : key; xa_mint : key; xa_stream : key; xa_vault : key;
  xa_nft_mint : key; xa_tp : tprog }.

(** instructions/renounce.rs:12-37 *)
Record renounce_accs := RenounceAccs { ra_sender : key; ra_stream : key; ra_nft_mint : key }.

(** instructions/collect_fees.rs:8-32 (lockup), instructions/collect_fees.rs:8-32 (merkle_instant) *)
Record collect_accs := CollectAccs { fa_collector : key; fa_recipient : key; fa_treasury : key }.

(** Arguments: lib.rs:148-158 *)
Record create_args := CreateArgs {
  p_salt : Z; p_deposit : Z; p_start : Z; p_cliff : Z; p_end : Z;
  p_start_unlock : Z; p_cliff_unlock : Z; p_cancelable : bool }.
(** lib.rs:86-95 *)
Record create_dur_args := CreateDurArgs {
  q_salt : Z; q_deposit : Z; q_cliff_duration : Z; q_total_duration : Z;
  q_start_unlock : Z; q_cliff_unlock : Z; q_cancelable : bool }.

(** ** initialize *)

(** instructions/initialize.rs (Initialize, handler) with utils/nft.rs:126-220 (initialize_collection)
    inlined, and state/treasury.rs:14-28, state/nft_collection_data.rs:20-25 *)
Definition initialize (E : env) (sg : list key) (a : initialize_accs)
    (fee_collector chainlink_program chainlink_feed : key) (w : world) : res (world * list event) :=
  (* 1. signer *)
  let! _ := check_signer sg (ia_initializer a) in
  (* 2. init accounts *)
  let! tbump := check_seeds E PLockup [s_TREASURY] (ia_treasury a) in
  let! w := init_account E (ia_initializer a) (ia_treasury a) TREASURY_SPACE
              (DLockupTreasury (Treasury 0 0 0 0)) w in
  let! nbump := check_seeds E PLockup [s_NFT_COLLECTION_DATA] (ia_nft_collection_data a) in
  let! w := init_account E (ia_initializer a) (ia_nft_collection_data a) NFT_COLLECTION_SPACE
              (DNftCollection (NftCollection 0 0)) w in
  let! mbump := check_seeds E PLockup [s_NFT_COLLECTION_MINT] (ia_mint a) in
  let! w := create_mint E (ia_initializer a) (ia_mint a) (ia_nft_tp a) 0 (ia_mint a) (ia_mint a) w in
  let! w := create_ata E (ia_initializer a) (ia_ata a) (ia_treasury a) (ia_mint a) (ia_nft_tp a) w in
  (* 3. constraints *)
  let! _ := check_seeds E PMetadata (edition_seeds E (ia_mint a)) (ia_edition a) in
  let! _ := check_seeds E PMetadata (metadata_seeds E (ia_mint a)) (ia_metadata a) in
  (* handler *)
  let w := set_dat (ia_treasury a)
             (DLockupTreasury (Treasury tbump fee_collector chainlink_program chainlink_feed)) w in
  let w := set_dat (ia_nft_collection_data a) (DNftCollection (NftCollection 0 nbump)) w in
  (* nft::initialize_collection *)
  let signed := bool_decide (create_program_address E PLockup [s_NFT_COLLECTION_MINT] mbump = Some (ia_mint a)) in
  let! w := mint_to (ia_nft_tp a) (ia_mint a) (ia_ata a) (ia_mint a) signed 1 w in
  let! w := create_metadata E (ia_initializer a) (ia_metadata a) (ia_mint a) (ia_mint a) signed
              COLLECTION_NAME COLLECTION_SYMBOL COLLECTION_METADATA_URI (Some 0) w in
  let! w := create_master_edition E (ia_initializer a) (ia_edition a) (ia_metadata a) (ia_mint a) (ia_mint a) signed w in
  let! w := sign_metadata (ia_metadata a) signed w in
  Ok (w, []).

(** ** create *)

(** The accounts phase of CreateWithTimestamps (instructions/create_with_timestamps.rs:19-197), shared by the
    two create instructions. Returns the world after the [init] accounts, the bumps of [stream_data] and
    [nft_collection_mint], the loaded collection data and the loaded deposit mint. *)
Definition create_accounts (E : env) (sg : list key) (a : create_accs) (salt : Z) (w : world)
    : res (world * Z * Z * nft_collection * mint) :=
  (* 1. loads *)
  let! _ := check_signer sg (ca_creator a) in
  let! cata := load_token w (ca_creator_ata a) in
  let! nc := load_nft_collection w (ca_nft_collection_data a) in
  let! _ := load_mint w (ca_coll_mint a) in
  let! dm := load_mint w (ca_deposit_mint a) in
  (* 2. init accounts *)
  let! _ := check_seeds E PLockup (nft_mint_seeds (ca_sender a) salt) (ca_nft_mint a) in
  let! w := create_mint E (ca_creator a) (ca_nft_mint a) (ca_nft_tp a) 0 (ca_coll_mint a) (ca_coll_mint a) w in
  let! w := create_ata E (ca_creator a) (ca_recipient_nft_ata a) (ca_recipient a) (ca_nft_mint a) (ca_nft_tp a) w in
  let! sbump := check_seeds E PLockup (stream_seeds (ca_nft_mint a)) (ca_stream a) in
  let! w := init_account E (ca_creator a) (ca_stream a) STREAM_SPACE
              (DStream (StreamData (Amounts 0 0 0 0 0) 0 0 0 false false (Timestamps 0 0 0) 0 false)) w in
  let! w := create_ata E (ca_creator a) (ca_vault a) (ca_stream a) (ca_deposit_mint a) (ca_deposit_tp a) w in
  (* 3. constraints *)
  let! _ := check_ata E (ca_creator_ata a) cata (ca_creator a) (ca_deposit_mint a) (ca_deposit_tp a) in
  let! _ := check_seeds_bump E PLockup [s_NFT_COLLECTION_DATA] (nc_bump nc) (ca_nft_collection_data a) in
  let! _ := check_seeds E PMetadata (edition_seeds E (ca_coll_mint a)) (ca_coll_edition a) in
  let! _ := check_seeds E PMetadata (metadata_seeds E (ca_coll_mint a)) (ca_coll_metadata a) in
  let! mbump := check_seeds E PLockup [s_NFT_COLLECTION_MINT] (ca_coll_mint a) in
  let! _ := ensure (tprog_eqb (m_prog dm) (ca_deposit_tp a)) EConstraint in
  let! _ := check_seeds E PMetadata (edition_seeds E (ca_nft_mint a)) (ca_edition a) in
  let! _ := check_seeds E PMetadata (metadata_seeds E (ca_nft_mint a)) (ca_metadata a) in
  Ok (w, sbump, mbump, nc, dm).

(** [nft::create_stream], utils/nft.rs:16-122 *)
Definition nft_create_stream (E : env) (a : create_accs) (mbump : Z) (w : world) : res world :=
  let! name := nft_name (ca_nft_mint a) in
  let signed := bool_decide (create_program_address E PLockup [s_NFT_COLLECTION_MINT] mbump = Some (ca_coll_mint a)) in
  let! w := mint_to (ca_nft_tp a) (ca_nft_mint a) (ca_recipient_nft_ata a) (ca_coll_mint a) signed 1 w in
  let! w := create_metadata E (ca_creator a) (ca_metadata a) (ca_nft_mint a) (ca_coll_mint a) signed
              name NFT_SYMBOL NFT_METADATA_URI None w in
  let! w := create_master_edition E (ca_creator a) (ca_edition a) (ca_metadata a) (ca_nft_mint a)
              (ca_coll_mint a) signed w in
  set_and_verify_collection E (ca_metadata a) (ca_coll_mint a) (ca_coll_mint a) (ca_coll_metadata a)
    (ca_coll_edition a) signed w.

(** [handler], instructions/create_with_timestamps.rs:201-277, after the accounts phase.
    [nft_collection_data.create()]: state/nft_collection_data.rs:12-17. *)
Definition create_handler (E : env) (sg : list key) (a : create_accs) (p : create_args)
    (sbump mbump : Z) (nc : nft_collection) (dm : mint) (w : world) : res (world * list event) :=
  let! _ := check_create (p_deposit p) (p_start p) (p_cliff p) (p_end p) (p_start_unlock p) (p_cliff_unlock p) in
  let s := stream_create (ca_deposit_mint a) sbump (p_cliff p) (p_cliff_unlock p) (p_deposit p) (p_end p)
             (p_salt p) (p_cancelable p) (ca_sender a) (p_start p) (p_start_unlock p) in
  let w := set_dat (ca_stream a) (DStream s) w in
  let! w := nft_create_stream E a mbump w in
  let! total := u64_add (nc_total_supply nc) 1 in
  let w := set_dat (ca_nft_collection_data a) (DNftCollection (NftCollection total (nc_bump nc))) w in
  let! w := transfer_checked E (ca_deposit_tp a) (ca_creator_ata a) (ca_vault a) (ca_creator a)
              (bool_decide (ca_creator a ∈ sg)) (ca_deposit_mint a) (p_deposit p) (m_decimals dm) w in
  Ok (w, [EvCreateStream (p_salt p) (m_decimals dm) (ca_deposit_mint a) (ca_recipient a) (ca_stream a) (ca_nft_mint a)]).

(** instructions/create_with_timestamps.rs *)
Definition create_with_timestamps (E : env) (sg : list key) (a : create_accs) (p : create_args) (w : world)
    : res (world * list event) :=
  let! (w, sbump, mbump, nc, dm) := create_accounts E sg a (p_salt p) w in
  create_handler E sg a p sbump mbump nc dm w.

(** instructions/create_with_durations.rs:8-42. [checked_add(..).unwrap()] panics. *)
Definition create_with_durations (E : env) (sg : list key) (a : create_accs) (q : create_dur_args) (w : world)
    : res (world * list event) :=
  let! (w, sbump, mbump, nc, dm) := create_accounts E sg a (q_salt q) w in
  let start_time := get_current_time w in
  let! cliff_time :=
    (if 0 <? q_cliff_duration q then u64_add start_time (q_cliff_duration q) else Ok 0) in
  let! end_time := u64_add start_time (q_total_duration q) in
  create_handler E sg a
    (CreateArgs (q_salt q) (q_deposit q) start_time cliff_time end_time (q_start_unlock q)
       (q_cliff_unlock q) (q_cancelable q))
    sbump mbump nc dm w.

(** ** renounce *)

(** instructions/renounce.rs *)
Definition renounce (E : env) (sg : list key) (a : renounce_accs) (w : world) : res (world * list event) :=
  let! _ := check_signer sg (ra_sender a) in
  let! s := load_stream w (ra_stream a) in
  let! _ := load_mint w (ra_nft_mint a) in
  let! _ := check_address (ra_sender a) (s_sender s) in
  let! _ := check_seeds_bump E PLockup (stream_seeds (ra_nft_mint a)) (s_bump s) (ra_stream a) in
  (* handler, :40-64 *)
  let! streamed := get_streamed_amount (get_current_time w) (s_times s) (s_amounts s) (s_depleted s) (s_canceled s) in
  let! _ := check_renounce (s_cancelable s) (deposited (s_amounts s)) streamed in
  Ok (set_dat (ra_stream a) (DStream (stream_renounce s)) w,
      [EvRenounce (s_mint s) (ra_stream a) (ra_nft_mint a)]).

(** ** cancel *)

(** instructions/cancel.rs *)
Definition cancel (E : env) (sg : list key) (a : cancel_accs) (w : world) : res (world * list event) :=
  (* 1. loads *)
  let! _ := check_signer sg (xa_sender a) in
  let! m := load_mint w (xa_mint a) in
  let! s := load_stream w (xa_stream a) in
  let! vault := load_token w (xa_vault a) in
  let! _ := load_mint w (xa_nft_mint a) in
  (* 2. init_if_needed *)
  let! w := init_ata_if_needed E (xa_sender a) (xa_sender_ata a) (xa_sender a) (xa_mint a) (xa_tp a) w in
  (* 3. constraints *)
  let! _ := check_address (xa_sender a) (s_sender s) in
  let! _ := check_address (xa_mint a) (s_mint s) in
  let! _ := check_seeds_bump E PLockup (stream_seeds (xa_nft_mint a)) (s_bump s) (xa_stream a) in
  let! _ := check_ata E (xa_vault a) vault (xa_stream a) (xa_mint a) (xa_tp a) in
  (* handler, :84-136 *)
  let am := s_amounts s in
  let! streamed := get_streamed_amount (get_current_time w) (s_times s) am (s_depleted s) (s_canceled s) in
  let! _ := check_cancel (s_cancelable s) (s_depleted s) (s_canceled s) streamed (deposited am) in
  let! sender_amount := u64_sub (deposited am) streamed in
  let! recipient_amount := u64_sub streamed (withdrawn am) in
  let w := set_dat (xa_stream a) (DStream (stream_cancel s sender_amount recipient_amount)) w in
  let! w := transfer_checked E (xa_tp a) (xa_vault a) (xa_sender_ata a) (xa_stream a)
              (bool_decide (create_program_address E PLockup (stream_seeds (xa_nft_mint a)) (s_bump s) = Some (xa_stream a)))
              (xa_mint a) sender_amount (m_decimals m) w in
  Ok (w, [EvCancel (xa_mint a) recipient_amount sender_amount (xa_stream a) (xa_nft_mint a)]).

(** ** withdraw, withdraw_max *)

(** The accounts phase of Withdraw (instructions/withdraw.rs:22-134), shared by withdraw and withdraw_max.
    Returns the world after [init_if_needed], the stream and the deposited token's mint. *)
Definition withdraw_accounts (E : env) (sg : list key) (a : withdraw_accs) (w : world)
    : res (world * stream_data * mint) :=
  (* 1. loads *)
  let! _ := check_signer sg (wa_signer a) in
  let! tr := load_lockup_treasury w (wa_treasury a) in
  let! m := load_mint w (wa_mint a) in
  let! nft_ata := load_token w (wa_nft_ata a) in
  let! s := load_stream w (wa_stream a) in
  let! vault := load_token w (wa_vault a) in
  let! _ := load_mint w (wa_nft_mint a) in
  (* 2. init_if_needed *)
  let! w := init_ata_if_needed E (wa_signer a) (wa_dest a) (wa_withdrawal_recipient a) (wa_mint a) (wa_tp a) w in
  (* 3. constraints *)
  let! _ := ensure ((wa_withdrawal_recipient a =? wa_stream_recipient a)
                    || (negb (wa_withdrawal_recipient a =? wa_stream_recipient a)
                        && (wa_signer a =? wa_stream_recipient a))) EConstraint in
  let! _ := check_seeds_bump E PLockup [s_TREASURY] (tr_bump tr) (wa_treasury a) in
  let! _ := check_address (wa_mint a) (s_mint s) in
  let! _ := check_ata E (wa_nft_ata a) nft_ata (wa_stream_recipient a) (wa_nft_mint a) (wa_nft_tp a) in
  let! _ := ensure (t_amount nft_ata =? 1) EConstraint in
  let! _ := check_seeds_bump E PLockup (stream_seeds (wa_nft_mint a)) (s_bump s) (wa_stream a) in
  let! _ := check_ata E (wa_vault a) vault (wa_stream a) (wa_mint a) (wa_tp a) in
  let! _ := check_address (wa_chainlink a) (tr_chainlink_program tr) in
  let! _ := check_address (wa_feed a) (tr_chainlink_feed tr) in
  Ok (w, s, m).

(** [handler], instructions/withdraw.rs:137-183 *)
Definition withdraw_handler (E : env) (a : withdraw_accs) (amount : Z) (s : stream_data) (m : mint) (w : world)
    : res (world * list event) :=
  let! withdrawable :=
    get_withdrawable_amount (get_current_time w) (s_times s) (s_amounts s) (s_depleted s) (s_canceled s) in
  let! _ := check_withdraw (s_depleted s) amount withdrawable in
  let! s' := stream_withdraw s amount in
  let w := set_dat (wa_stream a) (DStream s') w in
  let! (w, fee) := charge_fee (withdrawal_fee_usd E) (wa_chainlink a) (wa_feed a) (wa_signer a) (wa_treasury a) w in
  let! w := transfer_checked E (wa_tp a) (wa_vault a) (wa_dest a) (wa_stream a)
              (bool_decide (create_program_address E PLockup (stream_seeds (wa_nft_mint a)) (s_bump s') = Some (wa_stream a)))
              (wa_mint a) amount (m_decimals m) w in
  Ok (w, [EvWithdraw (wa_mint a) fee (wa_stream a) (wa_nft_mint a) amount]).

(** instructions/withdraw.rs *)
Definition withdraw (E : env) (sg : list key) (a : withdraw_accs) (amount : Z) (w : world)
    : res (world * list event) :=
  let! (w, s, m) := withdraw_accounts E sg a w in
  withdraw_handler E a amount s m w.

(** instructions/withdraw_max.rs:5-14 *)
Definition withdraw_max (E : env) (sg : list key) (a : withdraw_accs) (w : world) : res (world * list event) :=
  let! (w, s, m) := withdraw_accounts E sg a w in
  let! withdrawable_amount :=
    get_withdrawable_amount (get_current_time w) (s_times s) (s_amounts s) (s_depleted s) (s_canceled s) in
  withdraw_handler E a withdrawable_amount s m w.

(** ** collect_fees *)

(** instructions/collect_fees.rs:8-54 *)
Definition lockup_collect_fees (E : env) (sg : list key) (a : collect_accs) (w : world) : res (world * list event) :=
  let! _ := check_signer sg (fa_collector a) in
  let! tr := load_lockup_treasury w (fa_treasury a) in
  let! _ := check_address (fa_collector a) (tr_fee_collector tr) in
  let! _ := check_seeds_bump E PLockup [s_TREASURY] (tr_bump tr) (fa_treasury a) in
  let! collectible := safe_collectible_amount E (fa_treasury a) w in
  let! _ := check_collect_fees collectible in
  let! w := move_lamports (fa_treasury a) (fa_recipient a) collectible w in
  Ok (w, [EvLockupFees collectible (fa_collector a) (fa_recipient a)]).

(** ** Instruction dispatch: lib.rs:44-255 *)

Inductive lockup_ix :=
| LInitialize (a : initialize_accs) (fee_collector chainlink_program chainlink_feed : key)
| LCreateTs (a : create_accs) (p : create_args)
| LCreateDur (a : create_accs) (q : create_dur_args)
| LRenounce (a : renounce_accs)
| LCancel (a : cancel_accs)
| LWithdraw (a : withdraw_accs) (amount : Z)
| LWithdrawMax (a : withdraw_accs)
| LCollectFees (a : collect_accs).

Definition create_accs_ok (a : create_accs) : bool :=
  forallb is_key [ca_creator a; ca_creator_ata a; ca_recipient a; ca_sender a; ca_nft_collection_data a;
    ca_coll_edition a; ca_coll_metadata a; ca_coll_mint a; ca_deposit_mint a; ca_nft_mint a;
    ca_recipient_nft_ata a; ca_stream a; ca_vault a; ca_edition a; ca_metadata a].
Definition withdraw_accs_ok (a : withdraw_accs) : bool :=
  forallb is_key [wa_signer a; wa_stream_recipient a; wa_withdrawal_recipient a; wa_dest a; wa_treasury a;
    wa_mint a; wa_nft_ata a; wa_stream a; wa_vault a; wa_nft_mint a; wa_chainlink a; wa_feed a].
Definition collect_accs_ok (a : collect_accs) : bool :=
  forallb is_key [fa_collector a; fa_recipient a; fa_treasury a].

(** Arguments arrive as bytes: integers are in range and account keys have 32 bytes. *)
Definition lockup_ix_ok (ix : lockup_ix) : bool :=
  match ix with
  | LInitialize a f p c =>
      forallb is_key [ia_initializer a; ia_treasury a; ia_nft_collection_data a; ia_edition a;
        ia_metadata a; ia_mint a; ia_ata a; f; p; c]
  | LCreateTs a p =>
      create_accs_ok a && is_u128 (p_salt p)
      && forallb is_u64 [p_deposit p; p_start p; p_cliff p; p_end p; p_start_unlock p; p_cliff_unlock p]
  | LCreateDur a q =>
      create_accs_ok a && is_u128 (q_salt q)
      && forallb is_u64 [q_deposit q; q_cliff_duration q; q_total_duration q; q_start_unlock q; q_cliff_unlock q]
  | LRenounce a => forallb is_key [ra_sender a; ra_stream a; ra_nft_mint a]
  | LCancel a =>
      forallb is_key [xa_sender a; xa_sender_ata a; xa_mint a; xa_stream a; xa_vault a; xa_nft_mint a]
  | LWithdraw a amount => withdraw_accs_ok a && is_u64 amount
  | LWithdrawMax a => withdraw_accs_ok a
  | LCollectFees a => collect_accs_ok a
  end.

Definition lockup_exec (E : env) (sg : list key) (ix : lockup_ix) (w : world) : res (world * list event) :=
  let! _ := ensure (lockup_ix_ok ix) EDecode in
  match ix with
  | LInitialize a f p c => initialize E sg a f p c w
  | LCreateTs a p => create_with_timestamps E sg a p w
  | LCreateDur a q => create_with_durations E sg a q w
  | LRenounce a => renounce E sg a w
  | LCancel a => cancel E sg a w
  | LWithdraw a amount => withdraw E sg a amount w
  | LWithdrawMax a => withdraw_max E sg a w
  | LCollectFees a => lockup_collect_fees E sg a w
  end.

(** ** Views *)

(** StreamView, instructions/view/stream_view.rs:7-24 *)
Definition stream_view (E : env) (stream nft_mint : key) (w : world) : res stream_data :=
  let! s := load_stream w stream in
  let! _ := load_mint w nft_mint in
  let! _ := check_seeds_bump E PLockup (stream_seeds nft_mint) (s_bump s) stream in
  Ok s.

(** instructions/view/streamed_amount_of.rs:7-14 *)
Definition streamed_amount_of (E : env) (stream nft_mint : key) (w : world) : res Z :=
  let! s := stream_view E stream nft_mint w in
  get_streamed_amount (get_current_time w) (s_times s) (s_amounts s) (s_depleted s) (s_canceled s).

(** instructions/view/withdrawable_amount_of.rs:7-14 *)
Definition withdrawable_amount_of (E : env) (stream nft_mint : key) (w : world) : res Z :=
  let! s := stream_view E stream nft_mint w in
  get_withdrawable_amount (get_current_time w) (s_times s) (s_amounts s) (s_depleted s) (s_canceled s).

(** instructions/view/refundable_amount_of.rs:7-15 *)
Definition refundable_amount_of (E : env) (stream nft_mint : key) (w : world) : res Z :=
  let! s := stream_view E stream nft_mint w in
  get_refundable_amount (get_current_time w) (s_times s) (s_amounts s) (s_cancelable s) (s_depleted s) (s_canceled s).

(** instructions/view/status_of.rs:7-38 *)
Definition status_of_view (E : env) (stream nft_mint : key) (w : world) : res status :=
  let! s := stream_view E stream nft_mint w in
  status_of (get_current_time w) s.

(** lib.rs:294-296 with instructions/view/stream_exists.rs:5-22 *)
Definition stream_exists (E : env) (nft_mint sender salt : Z) (w : world) : res bool :=
  let! _ := check_seeds E PLockup (nft_mint_seeds sender salt) nft_mint in
  Ok (match wdat w !! nft_mint with Some _ => true | None => false end).

(** lib.rs:318-320 with instructions/view/treasury_view.rs:5-16 *)
Definition lockup_treasury_view (E : env) (k : key) (w : world) : res treasury :=
  let! tr := load_lockup_treasury w k in
  let! _ := check_seeds_bump E PLockup [s_TREASURY] (tr_bump tr) k in
  Ok tr.

(** instructions/view/withdrawal_fee_in_lamports.rs:11-39 *)
Definition withdrawal_fee_in_lamports (E : env) (treas chainlink feed : key) (w : world) : res Z :=
  let! tr := load_lockup_treasury w treas in
  let! _ := check_seeds_bump E PLockup [s_TREASURY] (tr_bump tr) treas in
  let! _ := check_address chainlink (tr_chainlink_program tr) in
  let! _ := check_address feed (tr_chainlink_feed tr) in
  convert_usd_fee_to_lamports (withdrawal_fee_usd E) chainlink feed w.
