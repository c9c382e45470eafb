(** Error monad, fixed-width integers and byte strings.
    Everything else in the model is written with these. *)
From stdpp Require Export base numbers list gmap.
From Coq Require Export ZArith Lia.
From Coq Require Import String Ascii.
Global Open Scope Z_scope.

(** ** Errors *)

(** programs/lockup/src/utils/errors.rs:4-58, in order. *)
Inductive lockup_error :=
| StreamDepleted | StreamCanceled | StreamIsNotCancelable | StreamSettled
| CantCollectZeroFees
| CliffTimeNotLessThanEndTime | CliffTimeZeroUnlockAmountNotZero | DepositAmountZero
| StartTimeNotLessThanCliffTime | StartTimeNotLessThanEndTime | StartTimeZero
| UnlockAmountsSumTooHigh
| StreamAlreadyNonCancelable
| Overdraw | WithdrawAmountZero.

(** programs/merkle_instant/src/utils/errors.rs:4-26, in order. *)
Inductive merkle_error :=
| CampaignExpired | InvalidMerkleProof | CampaignNotStarted | ClawbackNotAllowed
| MCantCollectZeroFees.

(** Every way an instruction can fail.
    [EPanic]: a Rust panic (overflow with [overflow-checks = true], /repo/Cargo.toml:8; [unwrap], [expect];
    division by zero). [EDecode]: argument bytes that Borsh cannot decode to the declared integer type.
    [EAccount]: an account does not hold the expected type. [EConstraint]: an Anchor constraint fails.
    [ESigner]: a [Signer] did not sign. [ECpi]: a called program (System, Token, Associated Token,
    Metaplex) fails. The error is the transaction's only effect. *)
Inductive error :=
| EPanic | EDecode | EAccount | EConstraint | ESigner | ECpi
| ELockup (e : lockup_error) | EMerkle (e : merkle_error).

Inductive res (A : Type) := Ok (a : A) | Err (e : error).
Global Arguments Ok {A}.
Global Arguments Err {A}.

(** Rust's [?] operator. *)
Definition rbind {A B} (x : res A) (f : A -> res B) : res B :=
  match x with Ok a => f a | Err e => Err e end.
Notation "'let!' x ':=' e 'in' k" := (rbind e (fun x => k))
  (at level 200, x pattern, e at level 100, k at level 200, right associativity).

(** [if !b { return Err(e) }] *)
Definition ensure (b : bool) (e : error) : res unit := if b then Ok tt else Err e.

Definition of_option {A} (o : option A) (e : error) : res A :=
  match o with Some a => Ok a | None => Err e end.

Definition is_ok {A} (r : res A) : bool := match r with Ok _ => true | Err _ => false end.

(** ** Fixed-width integers, as mathematical integers with explicit range checks *)

Definition U64_MAX : Z := 18446744073709551615.
Definition U128_MAX : Z := 340282366920938463463374607431768211455.
Definition is_u8 (x : Z) : bool := (0 <=? x) && (x <=? 255).
Definition is_u32 (x : Z) : bool := (0 <=? x) && (x <=? 4294967295).
Definition is_u64 (x : Z) : bool := (0 <=? x) && (x <=? U64_MAX).
Definition is_u128 (x : Z) : bool := (0 <=? x) && (x <=? U128_MAX).

(** Checked operators: with [overflow-checks = true] (/repo/Cargo.toml:8) [+], [-] and [*] panic
    when the result leaves the type; [/] panics on zero. *)
Definition u64_add (x y : Z) : res Z := if x + y <=? U64_MAX then Ok (x + y) else Err EPanic.
Definition u64_sub (x y : Z) : res Z := if y <=? x then Ok (x - y) else Err EPanic.
Definition u64_mul (x y : Z) : res Z := if x * y <=? U64_MAX then Ok (x * y) else Err EPanic.
Definition u64_div (x y : Z) : res Z := if y =? 0 then Err EPanic else Ok (x / y).
Definition u128_mul (x y : Z) : res Z := if x * y <=? U128_MAX then Ok (x * y) else Err EPanic.
Definition u128_div (x y : Z) : res Z := if y =? 0 then Err EPanic else Ok (x / y).
Definition u128_pow (b e : Z) : res Z := if b ^ e <=? U128_MAX then Ok (b ^ e) else Err EPanic.

(** [as] casts wrap. *)
Definition as_u64 (x : Z) : Z := x mod 18446744073709551616.
Definition as_u32 (x : Z) : Z := x mod 4294967296.

(** ** Byte strings *)

Definition bytes := list Z.
Definition is_byte (b : Z) : bool := (0 <=? b) && (b <=? 255).

(** [to_le_bytes] of an [n]-byte integer. *)
Fixpoint le_bytes (n : nat) (x : Z) : bytes :=
  match n with O => [] | S n' => (x mod 256) :: le_bytes n' (x / 256) end.

(** [from_le_bytes]. *)
Fixpoint le_val (l : bytes) : Z :=
  match l with [] => 0 | b :: l' => b + 256 * le_val l' end.

(** A [b"..."] literal. *)
Fixpoint ascii_bytes (s : string) : bytes :=
  match s with
  | EmptyString => []
  | String c s' => Z.of_nat (nat_of_ascii c) :: ascii_bytes s'
  end.

(** Public keys are 32-byte strings; they are represented by the number they encode in little endian. *)
Definition key := Z.
Definition key_bytes (k : key) : bytes := le_bytes 32 k.
Definition KEY_BOUND : Z := 2 ^ 256.
Definition key_ok (k : key) : Prop := 0 <= k < KEY_BOUND.
Definition is_key (k : key) : bool := (0 <=? k) && (k <? KEY_BOUND).

(** ** String constants *)

(** programs/lockup/src/utils/constants.rs:9-15 *)
Definition s_EDITION : bytes := ascii_bytes "edition".
Definition s_METADATA : bytes := ascii_bytes "metadata".
Definition s_NFT_COLLECTION_DATA : bytes := ascii_bytes "nft_collection_data".
Definition s_NFT_COLLECTION_MINT : bytes := ascii_bytes "nft_collection_mint".
Definition s_STREAM_DATA : bytes := ascii_bytes "stream_data".
Definition s_STREAM_NFT_MINT : bytes := ascii_bytes "stream_nft_mint".
(** programs/lockup/src/utils/constants.rs:15 and programs/merkle_instant/src/utils/constants.rs:13 *)
Definition s_TREASURY : bytes := ascii_bytes "treasury".
(** programs/merkle_instant/src/utils/constants.rs:11-12 *)
Definition s_CAMPAIGN : bytes := ascii_bytes "campaign".
Definition s_CLAIM_RECEIPT : bytes := ascii_bytes "claim_receipt".

(** programs/lockup/src/utils/constants.rs:20-27 *)
Definition COLLECTION_METADATA_URI : bytes :=
  ascii_bytes "https://ipfs.io/ipfs/bafkreiak467qbqncgpkmgqmu7hynjnqb5j33jjnkk6bcdda63m3lf7czca".
Definition COLLECTION_NAME : bytes := ascii_bytes "Sablier LockupLinear Streams".
Definition COLLECTION_SYMBOL : bytes := ascii_bytes "LL_STREAMS".
Definition NFT_METADATA_URI : bytes :=
  ascii_bytes "https://ipfs.io/ipfs/bafkreiaidfetl2iedxjzbh2hof7dj3hdrs5l7sr643ggtjh7sb42jcj5nq".
Definition NFT_NAME_PREFIX : bytes := ascii_bytes "Sablier LL Stream #".
Definition NFT_SYMBOL : bytes := ascii_bytes "LL_STREAM".
Definition s_DOTS : bytes := ascii_bytes "...".

(** ** Base-58, as [Pubkey::to_string] (bs58 with the Bitcoin alphabet) *)

Definition b58_alphabet : bytes :=
  ascii_bytes "123456789ABCDEFGHJKLMNPQRSTUVWXYZabcdefghijkmnopqrstuvwxyz".
Definition b58_char (d : Z) : Z := nth (Z.to_nat d) b58_alphabet 0.

(** Big-endian value of a byte string. *)
Definition be_val (l : bytes) : Z := fold_left (fun acc b => acc * 256 + b) l 0.

(** Base-58 digits of [x], most significant first; no digit for 0. *)
Fixpoint b58_digits (fuel : nat) (x : Z) : list Z :=
  match fuel with
  | O => []
  | S f => if x <=? 0 then [] else b58_digits f (x / 58) ++ [x mod 58]
  end.

Fixpoint leading_zeros (l : bytes) : nat :=
  match l with 0 :: l' => S (leading_zeros l') | _ => O end.

(** Each leading zero byte becomes a '1', the rest is the number in base 58. The fuel (two digits per
    byte) always suffices (proved in PropNft.v). *)
Definition base58 (l : bytes) : bytes :=
  map b58_char (repeat 0 (leading_zeros l) ++ b58_digits (2 * List.length l) (be_val l)).

(** programs/lockup/src/utils/nft.rs:34-35. Slicing out of bounds panics. *)
Definition nft_name (mintk : key) : res bytes :=
  let mint_key := base58 (key_bytes mintk) in
  if (List.length mint_key <? 5)%nat then Err EPanic
  else Ok (NFT_NAME_PREFIX ++ firstn 5 mint_key ++ s_DOTS ++ skipn (List.length mint_key - 5) mint_key).
