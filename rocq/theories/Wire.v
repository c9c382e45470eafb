(** Transactions as bytes: Solana's wire format (legacy messages), the account list a client passes to each instruction,
    and the transaction the repository's client helper sends. *)
From Verif Require Export PropLocal Borsh.

(** ** Solana's wire format (not part of /repo) *)

(** An account as an instruction names it. *)
Record meta := Meta { meta_key : key; meta_signer : bool; meta_writable : bool }.
Record wire_ix := WireIx { x_prog : key; x_metas : list meta; x_data : bytes }.

(** [compact-u16] *)
Definition compact (n : Z) : bytes :=
  if n <? 128 then [n]
  else if n <? 16384 then [n mod 128 + 128; n / 128]
  else [n mod 128 + 128; (n / 128) mod 128 + 128; n / 16384].
Definition len {A} (l : list A) : Z := Z.of_nat (length l).
(** A list without its repetitions. *)
Fixpoint firsts (l : list key) : list key :=
  match l with [] => [] | x :: r => x :: List.filter (fun y => negb (y =? x)) (firsts r) end.
Fixpoint position (k : key) (l : list key) : Z :=
  match l with [] => 0 | x :: r => if k =? x then 0 else 1 + position k r end.

(** All accounts of a message, the fee payer first. *)
Definition message_metas (payer : key) (ixs : list wire_ix) : list meta :=
  Meta payer true true :: List.concat (map (fun x => x_metas x ++ [Meta (x_prog x) false false]) ixs).
Definition is_signer (ms : list meta) (k : key) : bool := existsb (fun m => (meta_key m =? k) && meta_signer m) ms.
Definition is_writable (ms : list meta) (k : key) : bool := existsb (fun m => (meta_key m =? k) && meta_writable m) ms.
(** The key table: each key once; writable signers, other signers, writable accounts, the rest. *)
Definition key_table (ms : list meta) : list key :=
  let ks := firsts (map meta_key ms) in
  List.filter (fun k => is_signer ms k && is_writable ms k) ks ++ List.filter (fun k => is_signer ms k && negb (is_writable ms k)) ks ++
  List.filter (fun k => negb (is_signer ms k) && is_writable ms k) ks ++ List.filter (fun k => negb (is_signer ms k) && negb (is_writable ms k)) ks.
Definition wire_ix_bytes (table : list key) (x : wire_ix) : bytes :=
  [position (x_prog x) table] ++ compact (len (x_metas x)) ++ map (fun m => position (meta_key m) table) (x_metas x) ++
  compact (len (x_data x)) ++ x_data x.
Definition message_bytes (payer : key) (blockhash : bytes) (ixs : list wire_ix) : bytes :=
  let ms := message_metas payer ixs in
  let table := key_table ms in
  [len (List.filter (is_signer ms) table);
   len (List.filter (fun k => is_signer ms k && negb (is_writable ms k)) table);
   len (List.filter (fun k => negb (is_signer ms k) && negb (is_writable ms k)) table)] ++
  compact (len table) ++ List.concat (map key_bytes table) ++ blockhash ++
  compact (len ixs) ++ List.concat (map (wire_ix_bytes table) ixs).
(** A signed transaction; [sign m k] is the 64-byte signature of [m] by [k]. *)
Definition transaction_bytes (sign : bytes -> key -> bytes) (payer : key) (blockhash : bytes) (ixs : list wire_ix) : bytes :=
  let ms := message_metas payer ixs in
  let message := message_bytes payer blockhash ixs in
  let signers := List.filter (is_signer ms) (key_table ms) in
  compact (len signers) ++ List.concat (map (sign message) signers) ++ message.
(** [PACKET_DATA_SIZE]: the largest transaction a validator accepts. *)
Definition PACKET_DATA_SIZE : Z := 1232.

(** ** What a client sends *)

(** The fixed addresses that [env] does not have. *)
Record addresses := Addresses {
  lockup_id : key; merkle_id : key; system_id : key; assoc_token_id : key; rent_sysvar_id : key; compute_budget_id : key }.

Definition signer_w k := Meta k true true. Definition signer_r k := Meta k true false.
Definition acc_w k := Meta k false true. Definition acc_r k := Meta k false false.

Section client.
  Context (E : env) (P : addresses).
  (** programs/lockup/src/instructions/create_with_timestamps.rs:19-197; create_with_durations.rs uses the same struct *)
  Definition create_metas (a : create_accs) : list meta :=
    [signer_w (ca_creator a); acc_w (ca_creator_ata a); acc_r (ca_recipient a); acc_r (ca_sender a);
     acc_w (ca_nft_collection_data a); acc_r (ca_coll_edition a); acc_w (ca_coll_metadata a); acc_r (ca_coll_mint a);
     acc_r (ca_deposit_mint a); acc_w (ca_nft_mint a); acc_w (ca_recipient_nft_ata a); acc_w (ca_stream a);
     acc_w (ca_vault a); acc_w (ca_edition a); acc_w (ca_metadata a);
     acc_r (assoc_token_id P); acc_r (tprog_id E (ca_deposit_tp a)); acc_r (tprog_id E (ca_nft_tp a));
     acc_r (metadata_program_id E); acc_r (system_id P); acc_r (rent_sysvar_id P)].
  (** programs/lockup/src/instructions/withdraw.rs:22-134; withdraw_max.rs uses the same struct *)
  Definition withdraw_metas (a : withdraw_accs) : list meta :=
    [signer_w (wa_signer a); acc_r (wa_stream_recipient a); acc_r (wa_withdrawal_recipient a); acc_w (wa_dest a);
     acc_w (wa_treasury a); acc_r (wa_mint a); acc_r (wa_nft_ata a); acc_w (wa_stream a); acc_w (wa_vault a);
     acc_r (wa_nft_mint a); acc_r (assoc_token_id P); acc_r (wa_chainlink a); acc_r (wa_feed a);
     acc_r (tprog_id E (wa_tp a)); acc_r (tprog_id E (wa_nft_tp a)); acc_r (system_id P)].
  Definition lockup_metas (ix : lockup_ix) : list meta :=
    match ix with
    | LInitialize a _ _ _ =>
        (* programs/lockup/src/instructions/initialize.rs:17-124 *)
        [signer_w (ia_initializer a); acc_w (ia_treasury a); acc_w (ia_nft_collection_data a); acc_w (ia_edition a);
         acc_w (ia_metadata a); acc_w (ia_mint a); acc_w (ia_ata a); acc_r (assoc_token_id P);
         acc_r (tprog_id E (ia_nft_tp a)); acc_r (metadata_program_id E); acc_r (rent_sysvar_id P); acc_r (system_id P)]
    | LCreateTs a _ | LCreateDur a _ => create_metas a
    | LRenounce a =>
        (* programs/lockup/src/instructions/renounce.rs:12-37 *)
        [signer_r (ra_sender a); acc_w (ra_stream a); acc_r (ra_nft_mint a)]
    | LCancel a =>
        (* programs/lockup/src/instructions/cancel.rs:15-81 *)
        [signer_w (xa_sender a); acc_w (xa_sender_ata a); acc_r (xa_mint a); acc_w (xa_stream a); acc_w (xa_vault a);
         acc_r (xa_nft_mint a); acc_r (assoc_token_id P); acc_r (tprog_id E (xa_tp a)); acc_r (system_id P)]
    | LWithdraw a _ | LWithdrawMax a => withdraw_metas a
    | LCollectFees a =>
        (* programs/lockup/src/instructions/collect_fees.rs:8-32 *)
        [signer_r (fa_collector a); acc_w (fa_recipient a); acc_w (fa_treasury a)]
    end.
  Definition merkle_metas (ix : merkle_ix) : list meta :=
    match ix with
    | MInitialize i t _ _ _ =>
        (* programs/merkle_instant/src/instructions/initialize.rs:8-35 *)
        [signer_w i; acc_w t; acc_r (system_id P)]
    | MCreateCampaign a _ =>
        (* programs/merkle_instant/src/instructions/create_campaign.rs:15-79 *)
        [signer_w (na_creator a); acc_r (na_mint a); acc_w (na_campaign a); acc_w (na_vault a);
         acc_r (tprog_id E (na_tp a)); acc_r (assoc_token_id P); acc_r (system_id P)]
    | MClaim a _ _ _ =>
        (* programs/merkle_instant/src/instructions/claim.rs:21-114 *)
        [signer_w (la_claimer a); acc_r (la_recipient a); acc_w (la_recipient_ata a); acc_w (la_treasury a);
         acc_r (la_mint a); acc_w (la_campaign a); acc_w (la_vault a); acc_w (la_receipt a); acc_r (tprog_id E (la_tp a));
         acc_r (assoc_token_id P); acc_r (la_chainlink a); acc_r (la_feed a); acc_r (system_id P)]
    | MClawback a _ =>
        (* programs/merkle_instant/src/instructions/clawback.rs:12-71 *)
        [signer_w (ba_creator a); acc_r (ba_recipient a); acc_w (ba_recipient_ata a); acc_r (ba_mint a);
         acc_r (ba_campaign a); acc_w (ba_vault a); acc_r (tprog_id E (ba_tp a)); acc_r (assoc_token_id P); acc_r (system_id P)]
    | MCollectFees a =>
        (* programs/merkle_instant/src/instructions/collect_fees.rs:8-32 *)
        [signer_r (fa_collector a); acc_w (fa_recipient a); acc_w (fa_treasury a)]
    end.
  Definition wire_of (i : any_ix) : wire_ix :=
    match i with
    | IL ix => WireIx (lockup_id P) (lockup_metas ix) (lockup_data (lockup_call_of ix))
    | IM ix => WireIx (merkle_id P) (merkle_metas ix) (merkle_data (merkle_call_of ix))
    end.
  (** [ComputeBudgetProgram.setComputeUnitLimit] (@solana/web3.js): tag 2 and a u32, no accounts. *)
  Definition budget_ix (units : Z) : wire_ix := WireIx (compute_budget_id P) [] (2 :: le_bytes 4 units).
  (** tests/common/anchor-bankrun.ts:8-42 [buildSignAndProcessTx] on one instruction: with a compute limit, or
      ([cuLimit = undefined]) without one. *)
  Definition client_tx (sign : bytes -> key -> bytes) (payer : key) (blockhash : bytes) (cu_limit : option Z) (i : any_ix) : bytes :=
    transaction_bytes sign payer blockhash (match cu_limit with Some u => [budget_ix u] | None => [] end ++ [wire_of i]).
End client.
