(** The byte formats: Borsh encoding of accounts and instruction data, with Anchor's discriminators.
    The rest of the model works on decoded accounts and arguments; this file models how they get there. *)
From Verif Require Export Sha256 Utf8 Merkle.
From Coq Require Import (notations) String.

(** ** Codecs *)

(** An encoder, a decoder that returns the unread rest ([BorshDeserialize::deserialize] on [&mut &[u8]]), and the
    values of the type. *)
Record codec (A : Type) := Codec { enc : A -> bytes; dec : bytes -> option (A * bytes); val_ok : A -> bool }.
Global Arguments Codec {A}. Global Arguments enc {A}. Global Arguments dec {A}. Global Arguments val_ok {A}.

Definition take_bytes (n : nat) (l : bytes) : option (bytes * bytes) :=
  if (n <=? length l)%nat then Some (firstn n l, skipn n l) else None.
Definition c_unit : codec unit := Codec (fun _ => []) (fun l => Some (tt, l)) (fun _ => true).
(** An unsigned integer of [n] bytes: little endian. *)
Definition c_uint (n : nat) : codec Z :=
  Codec (le_bytes n)
    (fun l => match take_bytes n l with Some (b, r) => Some (le_val b, r) | None => None end)
    (fun x => (0 <=? x) && (x <? 256 ^ Z.of_nat n)).
Definition c_u8 := c_uint 1. Definition c_u32 := c_uint 4. Definition c_u64 := c_uint 8. Definition c_u128 := c_uint 16.
(** [Pubkey]: its 32 bytes. *)
Definition c_key : codec key := c_uint 32.
(** [bool]: one byte, 0 or 1; anything else is rejected. *)
Definition c_bool : codec bool :=
  Codec (fun b : bool => [if b then 1 else 0])
    (fun l => match l with 0 :: r => Some (false, r) | 1 :: r => Some (true, r) | _ => None end)
    (fun _ => true).
(** [[u8; 32]] *)
Definition c_hash : codec bytes := Codec (fun b => b) (take_bytes 32) is_hash.
(** [String]: a u32 length and that many bytes, which must be UTF-8. *)
Definition c_string : codec bytes :=
  Codec (fun b => le_bytes 4 (Z.of_nat (length b)) ++ b)
    (fun l => match dec c_u32 l with
      | Some (n, l1) => match take_bytes (Z.to_nat n) l1 with
        | Some (b, r) => if utf8_valid b then Some (b, r) else None
        | None => None end
      | None => None end)
    is_string.
Fixpoint dec_many {A} (c : codec A) (n : nat) (l : bytes) : option (list A * bytes) :=
  match n with
  | O => Some ([], l)
  | S n' => match dec c l with
      | Some (x, l1) => match dec_many c n' l1 with Some (xs, r) => Some (x :: xs, r) | None => None end
      | None => None end
  end.
(** [Vec<T>]: a u32 length and the elements. *)
Definition c_vec {A} (c : codec A) : codec (list A) :=
  Codec (fun xs => le_bytes 4 (Z.of_nat (length xs)) ++ List.concat (map (enc c) xs))
    (fun l => match dec c_u32 l with Some (n, l1) => dec_many c (Z.to_nat n) l1 | None => None end)
    (fun xs => is_u32 (Z.of_nat (length xs)) && forallb (val_ok c) xs).
(** Fields in sequence. *)
Definition c_pair {A B} (ca : codec A) (cb : codec B) : codec (A * B) :=
  Codec (fun x => enc ca (fst x) ++ enc cb (snd x))
    (fun l => match dec ca l with
      | Some (a, l1) => match dec cb l1 with Some (b, r) => Some ((a, b), r) | None => None end
      | None => None end)
    (fun x => val_ok ca (fst x) && val_ok cb (snd x)).
(** A struct, from the sequence of its fields in declaration order. *)
Definition c_map {A B} (f : A -> B) (g : B -> A) (c : codec A) : codec B :=
  Codec (fun x => enc c (g x))
    (fun l => match dec c l with Some (a, r) => Some (f a, r) | None => None end)
    (fun x => val_ok c (g x)).
Infix "**" := c_pair (at level 40, left associativity).

(** ** Accounts *)

(** programs/lockup/src/state/lockup.rs:3-10 *)
Definition c_amounts : codec amounts :=
  c_map (fun '(su, cu, d, r, w) => Amounts su cu d r w)
    (fun a => (start_unlock a, cliff_unlock a, deposited a, refunded a, withdrawn a))
    (c_u64 ** c_u64 ** c_u64 ** c_u64 ** c_u64).
(** programs/lockup/src/state/lockup.rs:26-32 *)
Definition c_timestamps : codec timestamps :=
  c_map (fun '(c, e, s) => Timestamps c e s) (fun t => (t_cliff t, t_end t, t_start t)) (c_u64 ** c_u64 ** c_u64).
(** programs/lockup/src/state/lockup.rs:12-24 *)
Definition c_stream : codec stream_data :=
  c_map (fun '(a, m, b, sa, ic, id, ti, se, wc) => StreamData a m b sa ic id ti se wc)
    (fun s => (s_amounts s, s_mint s, s_bump s, s_salt s, s_cancelable s, s_depleted s, s_times s, s_sender s, s_canceled s))
    (c_amounts ** c_key ** c_u8 ** c_u128 ** c_bool ** c_bool ** c_timestamps ** c_key ** c_bool).
(** programs/lockup/src/state/treasury.rs:3-10, programs/merkle_instant/src/state/treasury.rs:3-10 *)
Definition c_treasury : codec treasury :=
  c_map (fun '(b, f, p, c) => Treasury b f p c)
    (fun t => (tr_bump t, tr_fee_collector t, tr_chainlink_program t, tr_chainlink_feed t))
    (c_u8 ** c_key ** c_key ** c_key).
(** programs/lockup/src/state/nft_collection_data.rs:3-8 *)
Definition c_collection : codec nft_collection :=
  c_map (fun '(t, b) => NftCollection t b) (fun n => (nc_total_supply n, nc_bump n)) (c_u64 ** c_u8).
(** programs/merkle_instant/src/state/campaign.rs:6-20 *)
Definition c_campaign : codec campaign :=
  c_map (fun '(m, b, st, cr, ex, fc, ip, ro, na) => Campaign m b st cr ex fc ip ro na)
    (fun c => (c_mint c, c_bump c, c_start c, c_creator c, c_expiration c, c_first_claim c, c_ipfs c, c_root c, c_name c))
    (c_key ** c_u8 ** c_u64 ** c_key ** c_u64 ** c_u64 ** c_string ** c_hash ** c_string).

(** [#[account]] and [#[program]]: the first 8 bytes of SHA-256 of "account:<Struct>" or "global:<function>". *)
Definition discriminator (s : bytes) : bytes := firstn 8 (sha256 s).
Definition disc_StreamData : bytes := Eval vm_compute in discriminator (ascii_bytes "account:StreamData"%string).
Definition disc_Treasury : bytes := Eval vm_compute in discriminator (ascii_bytes "account:Treasury"%string).
Definition disc_NftCollectionData : bytes := Eval vm_compute in discriminator (ascii_bytes "account:NftCollectionData"%string).
Definition disc_Campaign : bytes := Eval vm_compute in discriminator (ascii_bytes "account:Campaign"%string).
Definition disc_ClaimReceipt : bytes := Eval vm_compute in discriminator (ascii_bytes "account:ClaimReceipt"%string).

(** [starts_with] and the rest. *)
Fixpoint strip (p l : bytes) : option bytes :=
  match p, l with
  | [], _ => Some l
  | a :: p', b :: l' => if a =? b then strip p' l' else None
  | _ :: _, [] => None
  end.

(** [AccountSerialize::try_serialize] of the accounts of the two programs: the discriminator and the fields. *)
Definition account_bytes (d : adata) : option bytes :=
  match d with
  | DStream s => Some (disc_StreamData ++ enc c_stream s)
  | DLockupTreasury t | DMerkleTreasury t => Some (disc_Treasury ++ enc c_treasury t)
  | DNftCollection n => Some (disc_NftCollectionData ++ enc c_collection n)
  | DCampaign c => Some (disc_Campaign ++ enc c_campaign c)
  | DClaimReceipt => Some (disc_ClaimReceipt ++ enc c_unit tt)
  | _ => None
  end.
(** The space given to [init]: create_with_timestamps.rs:130, lockup initialize.rs:34,47, merkle_instant initialize.rs:25,
    create_campaign.rs:41, claim.rs:80. *)
Definition account_space (d : adata) : option Z :=
  match d with
  | DStream _ => Some STREAM_SPACE
  | DLockupTreasury _ | DMerkleTreasury _ => Some TREASURY_SPACE
  | DNftCollection _ => Some NFT_COLLECTION_SPACE
  | DCampaign _ => Some CAMPAIGN_SPACE
  | DClaimReceipt => Some RECEIPT_SPACE
  | _ => None
  end.
(** [Account::<T>::try_from] for each account type of a program: the owner is checked first (here: [p]), then the
    discriminator, then the fields are decoded; bytes after the fields are ignored. *)
Definition load_one {A} (disc : bytes) (c : codec A) (mk : A -> adata) (l : bytes) : option adata :=
  match strip disc l with
  | Some r => match dec c r with Some (x, _) => Some (mk x) | None => None end
  | None => None
  end.
Definition load_as_stream := load_one disc_StreamData c_stream DStream.
Definition load_as_collection := load_one disc_NftCollectionData c_collection DNftCollection.
Definition load_as_treasury (p : program) :=
  load_one disc_Treasury c_treasury (match p with PMerkle => DMerkleTreasury | _ => DLockupTreasury end).
Definition load_as_campaign := load_one disc_Campaign c_campaign DCampaign.
Definition load_as_receipt := load_one disc_ClaimReceipt c_unit (fun _ => DClaimReceipt).

(** ** Instruction data: lib.rs of the two programs *)

(** An instruction of Lockup without its accounts (programs/lockup/src/lib.rs:44-345), views included. *)
Inductive lockup_call :=
| KCancel | KCollectFees
| KCreateDur (q : create_dur_args) | KCreateTs (p : create_args)
| KInitialize (fee_collector chainlink_program chainlink_feed : key)
| KRenounce | KWithdraw (amount : Z) | KWithdrawMax
| KRefundable | KStatus | KStreamExists (sender salt : Z) | KStreamed | KTreasuryView | KWithdrawable | KWithdrawalFee.

Definition c_dur_args : codec create_dur_args :=
  c_map (fun '(sa, d, cd, td, su, cu, ic) => CreateDurArgs sa d cd td su cu ic)
    (fun q => (q_salt q, q_deposit q, q_cliff_duration q, q_total_duration q, q_start_unlock q, q_cliff_unlock q, q_cancelable q))
    (c_u128 ** c_u64 ** c_u64 ** c_u64 ** c_u64 ** c_u64 ** c_bool).
Definition c_ts_args : codec create_args :=
  c_map (fun '(sa, d, st, cl, en, su, cu, ic) => CreateArgs sa d st cl en su cu ic)
    (fun p => (p_salt p, p_deposit p, p_start p, p_cliff p, p_end p, p_start_unlock p, p_cliff_unlock p, p_cancelable p))
    (c_u128 ** c_u64 ** c_u64 ** c_u64 ** c_u64 ** c_u64 ** c_u64 ** c_bool).
Definition c_three_keys : codec (key * key * key) := c_key ** c_key ** c_key.

(** One arm of the dispatcher: discriminator and argument decoder. *)
Record arm (C : Type) := Arm { arm_disc : bytes; arm_dec : bytes -> option (C * bytes) }.
Global Arguments Arm {C}. Global Arguments arm_disc {C}. Global Arguments arm_dec {C}.
Definition mk_arm {A C} (name : bytes) (c : codec A) (mk : A -> C) : arm C :=
  Arm (discriminator name) (fun l => match dec c l with Some (x, r) => Some (mk x, r) | None => None end).
(** The generated dispatcher: the first arm whose discriminator the data starts with decodes the arguments; the bytes
    after them are ignored. The IDL and event instructions Anchor adds are not modelled. *)
Fixpoint dispatch {C} (arms : list (arm C)) (l : bytes) : option C :=
  match arms with
  | [] => None
  | a :: arms' => match strip (arm_disc a) l with
      | Some r => match arm_dec a r with Some (x, _) => Some x | None => None end
      | None => dispatch arms' l
      end
  end.

Definition g_name_of (s : bytes) : bytes := ascii_bytes "global:"%string ++ s.
Definition lockup_name (c : lockup_call) : bytes := g_name_of (ascii_bytes (match c with
  | KCancel => "cancel" | KCollectFees => "collect_fees"
  | KCreateDur _ => "create_with_durations_ll" | KCreateTs _ => "create_with_timestamps_ll"
  | KInitialize _ _ _ => "initialize" | KRenounce => "renounce" | KWithdraw _ => "withdraw" | KWithdrawMax => "withdraw_max"
  | KRefundable => "refundable_amount_of" | KStatus => "status_of" | KStreamExists _ _ => "stream_exists"
  | KStreamed => "streamed_amount_of" | KTreasuryView => "treasury_view" | KWithdrawable => "withdrawable_amount_of"
  | KWithdrawalFee => "withdrawal_fee_in_lamports" end)%string).
Definition lockup_args (c : lockup_call) : bytes :=
  match c with
  | KCreateDur q => enc c_dur_args q
  | KCreateTs p => enc c_ts_args p
  | KInitialize f p c => enc c_three_keys (f, p, c)
  | KWithdraw a => enc c_u64 a
  | KStreamExists s salt => enc (c_key ** c_u128) (s, salt)
  | _ => []
  end.
(** What a client sends. *)
Definition lockup_data (c : lockup_call) : bytes := discriminator (lockup_name c) ++ lockup_args c.
Definition lockup_call_ok (c : lockup_call) : bool :=
  match c with
  | KCreateDur q => val_ok c_dur_args q
  | KCreateTs p => val_ok c_ts_args p
  | KInitialize f p c => val_ok c_three_keys (f, p, c)
  | KWithdraw a => val_ok c_u64 a
  | KStreamExists s salt => val_ok (c_key ** c_u128) (s, salt)
  | _ => true
  end.
Definition lockup_arms : list (arm lockup_call) :=
  let z := CreateDurArgs 0 0 0 0 0 0 true in let y := CreateArgs 0 0 0 0 0 0 0 true in
  [ mk_arm (lockup_name KCancel) c_unit (fun _ => KCancel);
    mk_arm (lockup_name KCollectFees) c_unit (fun _ => KCollectFees);
    mk_arm (lockup_name (KCreateDur z)) c_dur_args KCreateDur;
    mk_arm (lockup_name (KCreateTs y)) c_ts_args KCreateTs;
    mk_arm (lockup_name (KInitialize 0 0 0)) c_three_keys (fun '(f, p, c) => KInitialize f p c);
    mk_arm (lockup_name KRenounce) c_unit (fun _ => KRenounce);
    mk_arm (lockup_name (KWithdraw 0)) c_u64 KWithdraw;
    mk_arm (lockup_name KWithdrawMax) c_unit (fun _ => KWithdrawMax);
    mk_arm (lockup_name KRefundable) c_unit (fun _ => KRefundable);
    mk_arm (lockup_name KStatus) c_unit (fun _ => KStatus);
    mk_arm (lockup_name (KStreamExists 0 0)) (c_key ** c_u128) (fun '(s, salt) => KStreamExists s salt);
    mk_arm (lockup_name KStreamed) c_unit (fun _ => KStreamed);
    mk_arm (lockup_name KTreasuryView) c_unit (fun _ => KTreasuryView);
    mk_arm (lockup_name KWithdrawable) c_unit (fun _ => KWithdrawable);
    mk_arm (lockup_name KWithdrawalFee) c_unit (fun _ => KWithdrawalFee) ].

(** Merkle Instant (programs/merkle_instant/src/lib.rs:52-240). *)
Inductive merkle_call :=
| JClaim (index amount : Z) (proof : list bytes) | JClawback (amount : Z) | JCollectFees
| JCreateCampaign (g : campaign_args) | JInitialize (fee_collector chainlink_program chainlink_feed : key)
| JCampaignView | JClaimFee | JHasClaimed (index : Z) | JHasExpired | JHasGracePeriodPassed | JHasCampaignStarted
| JTreasuryView.
Definition c_campaign_args : codec campaign_args :=
  c_map (fun '(r, st, ex, na, ip, ag, rc) => CampaignArgs r st ex na ip ag rc)
    (fun g => (g_root g, g_start g, g_expiration g, g_name g, g_ipfs g, g_aggregate g, g_recipient_count g))
    (c_hash ** c_u64 ** c_u64 ** c_string ** c_string ** c_u64 ** c_u32).
Definition merkle_name (c : merkle_call) : bytes := g_name_of (ascii_bytes (match c with
  | JClaim _ _ _ => "claim" | JClawback _ => "clawback" | JCollectFees => "collect_fees"
  | JCreateCampaign _ => "create_campaign" | JInitialize _ _ _ => "initialize"
  | JCampaignView => "campaign_view" | JClaimFee => "claim_fee_in_lamports" | JHasClaimed _ => "has_claimed"
  | JHasExpired => "has_expired" | JHasGracePeriodPassed => "has_grace_period_passed"
  | JHasCampaignStarted => "has_campaign_started" | JTreasuryView => "treasury_view" end)%string).
Definition merkle_args (c : merkle_call) : bytes :=
  match c with
  | JClaim i a p => enc (c_u32 ** c_u64 ** c_vec c_hash) (i, a, p)
  | JClawback a => enc c_u64 a
  | JCreateCampaign g => enc c_campaign_args g
  | JInitialize f p c => enc c_three_keys (f, p, c)
  | JHasClaimed i => enc c_u32 i
  | _ => []
  end.
Definition merkle_data (c : merkle_call) : bytes := discriminator (merkle_name c) ++ merkle_args c.
Definition merkle_call_ok (c : merkle_call) : bool :=
  match c with
  | JClaim i a p => val_ok (c_u32 ** c_u64 ** c_vec c_hash) (i, a, p)
  | JClawback a => val_ok c_u64 a
  | JCreateCampaign g => val_ok c_campaign_args g
  | JInitialize f p c => val_ok c_three_keys (f, p, c)
  | JHasClaimed i => val_ok c_u32 i
  | _ => true
  end.
Definition merkle_arms : list (arm merkle_call) :=
  let z := CampaignArgs [] 0 0 [] [] 0 0 in
  [ mk_arm (merkle_name (JClaim 0 0 [])) (c_u32 ** c_u64 ** c_vec c_hash) (fun '(i, a, p) => JClaim i a p);
    mk_arm (merkle_name (JClawback 0)) c_u64 JClawback;
    mk_arm (merkle_name JCollectFees) c_unit (fun _ => JCollectFees);
    mk_arm (merkle_name (JCreateCampaign z)) c_campaign_args JCreateCampaign;
    mk_arm (merkle_name (JInitialize 0 0 0)) c_three_keys (fun '(f, p, c) => JInitialize f p c);
    mk_arm (merkle_name JCampaignView) c_unit (fun _ => JCampaignView);
    mk_arm (merkle_name JClaimFee) c_unit (fun _ => JClaimFee);
    mk_arm (merkle_name (JHasClaimed 0)) c_u32 JHasClaimed;
    mk_arm (merkle_name JHasExpired) c_unit (fun _ => JHasExpired);
    mk_arm (merkle_name JHasGracePeriodPassed) c_unit (fun _ => JHasGracePeriodPassed);
    mk_arm (merkle_name JHasCampaignStarted) c_unit (fun _ => JHasCampaignStarted);
    mk_arm (merkle_name JTreasuryView) c_unit (fun _ => JTreasuryView) ].

(** The data of a modelled instruction. *)
Definition lockup_call_of (ix : lockup_ix) : lockup_call :=
  match ix with
  | LInitialize _ f p c => KInitialize f p c
  | LCreateTs _ p => KCreateTs p
  | LCreateDur _ q => KCreateDur q
  | LRenounce _ => KRenounce
  | LCancel _ => KCancel
  | LWithdraw _ a => KWithdraw a
  | LWithdrawMax _ => KWithdrawMax
  | LCollectFees _ => KCollectFees
  end.
Definition merkle_call_of (ix : merkle_ix) : merkle_call :=
  match ix with
  | MInitialize _ _ f p c => JInitialize f p c
  | MCreateCampaign _ g => JCreateCampaign g
  | MClaim _ i a p => JClaim i a p
  | MClawback _ a => JClawback a
  | MCollectFees _ => JCollectFees
  end.

(** ** Events: [emit!] logs the first 8 bytes of SHA-256 of "event:<Struct>" and the fields in declaration order. *)

Definition e_name_of (s : bytes) : bytes := ascii_bytes "event:"%string ++ s.
(** programs/lockup/src/utils/events.rs:3-48, programs/merkle_instant/src/utils/events.rs:3-46 *)
Definition event_name (e : event) : bytes := e_name_of (ascii_bytes (match e with
  | EvCreateStream _ _ _ _ _ _ => "CreateLockupLinearStream" | EvCancel _ _ _ _ _ => "CancelLockupStream"
  | EvRenounce _ _ _ => "RenounceLockupStream" | EvWithdraw _ _ _ _ _ => "WithdrawFromLockupStream"
  | EvLockupFees _ _ _ | EvMerkleFees _ _ _ => "FeesCollected"
  | EvClaim _ _ _ _ _ _ _ => "Claim" | EvClawback _ _ _ _ => "Clawback"
  | EvCreateCampaign _ _ _ _ _ _ _ _ _ _ _ => "CreateCampaign" end)%string).
(** CancelLockupStream: events.rs:4-11 *)
Definition c_ev_cancel := c_key ** c_u64 ** c_u64 ** c_key ** c_key.
(** CreateLockupLinearStream: events.rs:14-22; the order of fields is not that of the model's constructor *)
Definition c_ev_create := c_u8 ** c_key ** c_key ** c_u128 ** c_key ** c_key.
(** FeesCollected: events.rs:25-30, and programs/merkle_instant/src/utils/events.rs:41-46 *)
Definition c_ev_fees := c_u64 ** c_key ** c_key.
(** RenounceLockupStream: events.rs:33-38 *)
Definition c_ev_renounce := c_key ** c_key ** c_key.
(** WithdrawFromLockupStream: events.rs:41-48 *)
Definition c_ev_withdraw := c_key ** c_u64 ** c_key ** c_key ** c_u64.
(** Claim: programs/merkle_instant/src/utils/events.rs:4-13 *)
Definition c_ev_claim := c_u64 ** c_key ** c_key ** c_key ** c_u64 ** c_u32 ** c_key.
(** Clawback: events.rs:16-22 *)
Definition c_ev_clawback := c_u64 ** c_key ** c_key ** c_key.
(** CreateCampaign: events.rs:25-38 *)
Definition c_ev_campaign := c_u64 ** c_key ** c_string ** c_u64 ** c_key ** c_u64 ** c_string ** c_hash ** c_u32 ** c_u8 ** c_key.
Definition event_fields (e : event) : bytes :=
  match e with
  | EvCreateStream salt d m r s n => enc c_ev_create (d, m, r, salt, s, n)
  | EvCancel m ra sa s n => enc c_ev_cancel (m, ra, sa, s, n)
  | EvRenounce m s n => enc c_ev_renounce (m, s, n)
  | EvWithdraw m f s n a => enc c_ev_withdraw (m, f, s, n, a)
  | EvLockupFees a c r | EvMerkleFees a c r => enc c_ev_fees (a, c, r)
  | EvClaim a c cl re f i r => enc c_ev_claim (a, c, cl, re, f, i, r)
  | EvClawback a c cr r => enc c_ev_clawback (a, c, cr, r)
  | EvCreateCampaign ag c na st cr ex ip ro rc d m => enc c_ev_campaign (ag, c, na, st, cr, ex, ip, ro, rc, d, m)
  end.
Definition event_ok (e : event) : bool :=
  match e with
  | EvCreateStream salt d m r s n => val_ok c_ev_create (d, m, r, salt, s, n)
  | EvCancel m ra sa s n => val_ok c_ev_cancel (m, ra, sa, s, n)
  | EvRenounce m s n => val_ok c_ev_renounce (m, s, n)
  | EvWithdraw m f s n a => val_ok c_ev_withdraw (m, f, s, n, a)
  | EvLockupFees a c r | EvMerkleFees a c r => val_ok c_ev_fees (a, c, r)
  | EvClaim a c cl re f i r => val_ok c_ev_claim (a, c, cl, re, f, i, r)
  | EvClawback a c cr r => val_ok c_ev_clawback (a, c, cr, r)
  | EvCreateCampaign ag c na st cr ex ip ro rc d m => val_ok c_ev_campaign (ag, c, na, st, cr, ex, ip, ro, rc, d, m)
  end.
(** What is logged. *)
Definition event_data (e : event) : bytes := discriminator (event_name e) ++ event_fields e.
(** What an indexer that knows the IDL reads from a log line of either program. *)
Definition lockup_events : list (arm event) :=
  [ mk_arm (event_name (EvCancel 0 0 0 0 0)) c_ev_cancel (fun '(m, ra, sa, s, n) => EvCancel m ra sa s n);
    mk_arm (event_name (EvCreateStream 0 0 0 0 0 0)) c_ev_create (fun '(d, m, r, salt, s, n) => EvCreateStream salt d m r s n);
    mk_arm (event_name (EvLockupFees 0 0 0)) c_ev_fees (fun '(a, c, r) => EvLockupFees a c r);
    mk_arm (event_name (EvRenounce 0 0 0)) c_ev_renounce (fun '(m, s, n) => EvRenounce m s n);
    mk_arm (event_name (EvWithdraw 0 0 0 0 0)) c_ev_withdraw (fun '(m, f, s, n, a) => EvWithdraw m f s n a) ].
Definition merkle_events : list (arm event) :=
  [ mk_arm (event_name (EvClaim 0 0 0 0 0 0 0)) c_ev_claim (fun '(a, c, cl, re, f, i, r) => EvClaim a c cl re f i r);
    mk_arm (event_name (EvClawback 0 0 0 0)) c_ev_clawback (fun '(a, c, cr, r) => EvClawback a c cr r);
    mk_arm (event_name (EvCreateCampaign 0 0 [] 0 0 0 [] [] 0 0 0)) c_ev_campaign
      (fun '(ag, c, na, st, cr, ex, ip, ro, rc, d, m) => EvCreateCampaign ag c na st cr ex ip ro rc d m);
    mk_arm (event_name (EvMerkleFees 0 0 0)) c_ev_fees (fun '(a, c, r) => EvMerkleFees a c r) ].

(** ** Views: the returned value, Borsh-encoded, is the transaction's return data. *)

(** [StreamStatus]: a field-less enum, one byte with the position of the variant; programs/lockup/src/instructions/view/status_of.rs:40-47 *)
Definition status_byte (s : status) : Z := match s with Pending => 0 | Streaming => 1 | Settled => 2 | Canceled => 3 | Depleted => 4 end.
Definition c_status : codec status :=
  Codec (fun s => [status_byte s])
    (fun l => match l with
      | 0 :: r => Some (Pending, r) | 1 :: r => Some (Streaming, r) | 2 :: r => Some (Settled, r)
      | 3 :: r => Some (Canceled, r) | 4 :: r => Some (Depleted, r) | _ => None end)
    (fun _ => true).
(** [set_return_data] fails on more than 1024 bytes. *)
Definition MAX_RETURN_DATA : Z := 1024.
Definition return_data {A} (c : codec A) (r : res A) : res bytes :=
  let! x := r in
  let! _ := ensure (Z.of_nat (length (enc c x)) <=? MAX_RETURN_DATA) EPanic in
  Ok (enc c x).
