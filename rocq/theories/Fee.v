(** USD fee conversion, fee charging and fee collection: the code both programs duplicate. *)
From Verif Require Export World.

(** programs/lockup/src/utils/constants.rs:5, programs/merkle_instant/src/utils/constants.rs:5 *)
Definition LAMPORTS_PER_SOL : Z := 1000000000.
(** programs/lockup/src/utils/constants.rs:4 *)
Definition WITHDRAWAL_FEE_USD : Z := 0.
(** programs/merkle_instant/src/utils/constants.rs:4 *)
Definition CLAIM_FEE_USD : Z := 0.
(** The fee settings of this commit. *)
Definition deployed_fees (E : env) : Prop :=
  withdrawal_fee_usd E = WITHDRAWAL_FEE_USD /\ claim_fee_usd E = CLAIM_FEE_USD.
(** programs/lockup/src/utils/fee_calculation.rs:46, programs/merkle_instant/src/utils/fee_calculation.rs:45 *)
Definition SECONDS_IN_24_HOURS : Z := 86400.

(** programs/lockup/src/utils/fee_calculation.rs:57-66, programs/merkle_instant/src/utils/fee_calculation.rs:56-65 *)
Definition fee_from_price (fee_usd price decimals : Z) : res Z :=
  if decimals =? 8 then
    let! x := u64_mul fee_usd LAMPORTS_PER_SOL in
    u64_div x price
  else
    let! p := u128_pow 10 (1 + decimals) in
    let! x := u128_mul fee_usd p in
    let! q := u128_div x price in
    Ok (as_u64 q).

(** programs/lockup/src/utils/fee_calculation.rs:17-68, programs/merkle_instant/src/utils/fee_calculation.rs:17-67,
    as a function of what the two oracle calls reply: an [Err] of either call makes the fee 0 (lines 25 and 54 of the Lockup copy), a
    failed invocation never comes back (see [reply]). [now] is
    [unix_timestamp]; the Lockup copy casts it to u64 and then to u32, the Merkle Instant copy directly
    to u32, which is the same number. [round.answer] is an i128, [round.timestamp] a u32. *)
Definition convert_fee (fee_usd : Z) (rnd : reply round) (dec : reply Z) (now : Z) : res Z :=
  if fee_usd =? 0 then Ok 0
  else match rnd with
  | Fails => Err ECpi
  | Undecodable => Ok 0
  | Answers r =>
      if r_answer r <=? 0 then Ok 0
      else
        let price := as_u64 (r_answer r) in
        let current_timestamp := as_u32 now in
        if current_timestamp <? r_timestamp r then Ok 0
        else if SECONDS_IN_24_HOURS <? current_timestamp - r_timestamp r then Ok 0
        else match dec with
        | Fails => Err ECpi
        | Undecodable => Ok 0
        | Answers d => fee_from_price fee_usd price d
        end
  end.

(** programs/lockup/src/utils/fee_calculation.rs:12-69, programs/merkle_instant/src/utils/fee_calculation.rs:12-68 *)
Definition convert_usd_fee_to_lamports (fee_usd : Z) (prog feed : key) (w : world) : res Z :=
  convert_fee fee_usd (latest_round_data w prog feed) (oracle_decimals w prog feed) (wclock w).

(** [charge_withdrawal_fee], programs/lockup/src/instructions/withdraw.rs:186-203, and [charge_claim_fee],
    programs/merkle_instant/src/instructions/claim.rs:180-196: the fee and the world after charging it. *)
Definition charge_fee (fee_usd : Z) (prog feed signer treas : key) (w : world) : res (world * Z) :=
  let! fee := convert_usd_fee_to_lamports fee_usd prog feed w in
  if 0 <? fee then
    let! w' := system_transfer signer treas fee w in Ok (w', fee)
  else Ok (w, fee).

(** [let buffer = 1_000_000], programs/lockup/src/instructions/collect_fees.rs:72 and
    programs/merkle_instant/src/instructions/collect_fees.rs:73 *)
Definition COLLECT_BUFFER : Z := 1000000.
(** Discriminator plus [Treasury::INIT_SPACE], programs/lockup/src/state/treasury.rs:3-10 and
    programs/merkle_instant/src/state/treasury.rs:3-10 *)
Definition TREASURY_SPACE : Z := 8 + 97.

(** programs/lockup/src/instructions/collect_fees.rs:59-77, programs/merkle_instant/src/instructions/collect_fees.rs:60-78 *)
Definition safe_collectible_amount (E : env) (k : key) (w : world) : res Z :=
  let! safe_minimum := u64_add (rent_min E TREASURY_SPACE) COLLECT_BUFFER in
  Ok (Z.max 0 (lam w k - safe_minimum)).

(** [sub_lamports] then [add_lamports], programs/lockup/src/instructions/collect_fees.rs:43-44,
    programs/merkle_instant/src/instructions/collect_fees.rs:43-44. The overflow check of [add_lamports]
    is omitted: the lamports of all accounts together fit in a u64. *)
Definition move_lamports (from to : key) (n : Z) (w : world) : res world :=
  let! rest := u64_sub (lam w from) n in
  let w1 := set_lam from rest w in
  Ok (set_lam to (lam w1 to + n) w1).
