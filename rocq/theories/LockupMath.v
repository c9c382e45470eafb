(** Pure code of the Lockup program: stream data, validations, streaming arithmetic. *)
From Verif Require Export Base.

(** ** State records *)

(** programs/lockup/src/state/lockup.rs:3-10 *)
Record amounts := Amounts {
  start_unlock : Z; cliff_unlock : Z; deposited : Z; refunded : Z; withdrawn : Z }.

(** programs/lockup/src/state/lockup.rs:26-32 *)
Record timestamps := Timestamps { t_cliff : Z; t_end : Z; t_start : Z }.

(** programs/lockup/src/state/lockup.rs:12-24 *)
Record stream_data := StreamData {
  s_amounts : amounts;
  s_mint : key;            (* deposited_token_mint *)
  s_bump : Z;
  s_salt : Z;
  s_cancelable : bool;     (* is_cancelable *)
  s_depleted : bool;       (* is_depleted *)
  s_times : timestamps;
  s_sender : key;
  s_canceled : bool }.     (* was_canceled *)

(** ** Streaming arithmetic *)

(** [const SCALING_FACTOR: u128 = 1e18 as u128], programs/lockup/src/utils/lockup_math.rs:47 *)
Definition SCALING_FACTOR : Z := 1000000000000000000.

(** programs/lockup/src/utils/lockup_math.rs:6-68. [now] is the value of [get_current_time()]
    (programs/lockup/src/utils/time.rs:4-6), read from the world's clock by the callers. *)
Definition get_streamed_amount (now : Z) (ts : timestamps) (am : amounts)
    (is_depleted was_canceled : bool) : res Z :=
  if is_depleted then Ok (withdrawn am)
  else if was_canceled then u64_sub (deposited am) (refunded am)
  else if now <? t_start ts then Ok 0
  else if now <? t_cliff ts then Ok (start_unlock am)
  else if t_end ts <=? now then Ok (deposited am)
  else
    let! unlock_amounts_sum := u64_add (start_unlock am) (cliff_unlock am) in
    if deposited am <=? unlock_amounts_sum then Ok (deposited am)
    else
      let streaming_start_time := if t_cliff ts =? 0 then t_start ts else t_cliff ts in
      let! elapsed := u64_sub now streaming_start_time in
      let! elapsed_time := u128_mul elapsed SCALING_FACTOR in
      let! streamable_range := u64_sub (t_end ts) streaming_start_time in
      let! elapsed_time_percentage := u128_div elapsed_time streamable_range in
      let! streamable_amount := u64_sub (deposited am) unlock_amounts_sum in
      let! scaled := u128_mul elapsed_time_percentage streamable_amount in
      let! portion := u128_div scaled SCALING_FACTOR in
      let! streamed_amount := u64_add unlock_amounts_sum (as_u64 portion) in
      if deposited am <? streamed_amount then Ok (withdrawn am) else Ok streamed_amount.

(** programs/lockup/src/utils/lockup_math.rs:70-85 *)
Definition get_refundable_amount (now : Z) (ts : timestamps) (am : amounts)
    (is_cancelable is_depleted was_canceled : bool) : res Z :=
  if is_cancelable && negb is_depleted then
    let! s := get_streamed_amount now ts am is_depleted was_canceled in
    u64_sub (deposited am) s
  else Ok 0.

(** programs/lockup/src/utils/lockup_math.rs:87-94 *)
Definition get_withdrawable_amount (now : Z) (ts : timestamps) (am : amounts)
    (is_depleted was_canceled : bool) : res Z :=
  let! s := get_streamed_amount now ts am is_depleted was_canceled in
  u64_sub s (withdrawn am).

(** ** Validations *)

(** programs/lockup/src/utils/validations.rs:6-31 *)
Definition check_cancel (is_cancelable is_depleted was_canceled : bool)
    (streamed_amount deposited_amount : Z) : res unit :=
  if is_depleted then Err (ELockup StreamDepleted)
  else if was_canceled then Err (ELockup StreamCanceled)
  else if negb is_cancelable then Err (ELockup StreamIsNotCancelable)
  else if deposited_amount <=? streamed_amount then Err (ELockup StreamSettled)
  else Ok tt.

(** programs/lockup/src/utils/validations.rs:34-41 *)
Definition check_collect_fees (collectible_amount : Z) : res unit :=
  if collectible_amount =? 0 then Err (ELockup CantCollectZeroFees) else Ok tt.

(** programs/lockup/src/utils/validations.rs:44-92 *)
Definition check_create (deposit_amount start_time cliff_time end_time
    start_unlock_amount cliff_unlock_amount : Z) : res unit :=
  if deposit_amount =? 0 then Err (ELockup DepositAmountZero)
  else if start_time =? 0 then Err (ELockup StartTimeZero)
  else if end_time <=? start_time then Err (ELockup StartTimeNotLessThanEndTime)
  else
    let! _ :=
      (if 0 <? cliff_time then
         if cliff_time <=? start_time then Err (ELockup StartTimeNotLessThanCliffTime)
         else if end_time <=? cliff_time then Err (ELockup CliffTimeNotLessThanEndTime)
         else Ok tt
       else if 0 <? cliff_unlock_amount then Err (ELockup CliffTimeZeroUnlockAmountNotZero)
       else Ok tt) in
    (* [checked_add(..).ok_or(UnlockAmountsSumTooHigh)?] *)
    let! total_unlock_amount :=
      (if start_unlock_amount + cliff_unlock_amount <=? U64_MAX
       then Ok (start_unlock_amount + cliff_unlock_amount)
       else Err (ELockup UnlockAmountsSumTooHigh)) in
    if deposit_amount <? total_unlock_amount then Err (ELockup UnlockAmountsSumTooHigh)
    else Ok tt.

(** programs/lockup/src/utils/validations.rs:95-102 *)
Definition check_renounce (is_cancelable : bool) (deposited_amount streamed_amount : Z) : res unit :=
  if negb is_cancelable || (deposited_amount <=? streamed_amount)
  then Err (ELockup StreamAlreadyNonCancelable) else Ok tt.

(** programs/lockup/src/utils/validations.rs:105-122 *)
Definition check_withdraw (is_depleted : bool) (amount withdrawable_amount : Z) : res unit :=
  if is_depleted then Err (ELockup StreamDepleted)
  else if amount =? 0 then Err (ELockup WithdrawAmountZero)
  else if withdrawable_amount <? amount then Err (ELockup Overdraw)
  else Ok tt.

(** ** State updates *)

(** [StreamData::cancel], programs/lockup/src/state/lockup.rs:36-45 *)
Definition stream_cancel (s : stream_data) (sender_amount recipient_amount : Z) : stream_data :=
  let am := s_amounts s in
  StreamData
    (Amounts (start_unlock am) (cliff_unlock am) (deposited am) sender_amount (withdrawn am))
    (s_mint s) (s_bump s) (s_salt s)
    false
    (if recipient_amount =? 0 then true else s_depleted s)
    (s_times s) (s_sender s)
    true.

(** [StreamData::create], programs/lockup/src/state/lockup.rs:49-84 *)
Definition stream_create (deposited_token_mint bump cliff_time cliff_unlock_amount deposit_amount
    end_time salt : Z) (is_cancelable : bool) (sender start_time start_unlock_amount : Z) : stream_data :=
  StreamData
    (Amounts start_unlock_amount cliff_unlock_amount deposit_amount 0 0)
    deposited_token_mint bump salt is_cancelable false
    (Timestamps cliff_time end_time start_time) sender false.

(** [StreamData::renounce], programs/lockup/src/state/lockup.rs:87-91 *)
Definition stream_renounce (s : stream_data) : stream_data :=
  StreamData (s_amounts s) (s_mint s) (s_bump s) (s_salt s) false (s_depleted s)
    (s_times s) (s_sender s) (s_canceled s).

(** [StreamData::withdraw], programs/lockup/src/state/lockup.rs:94-107. The [expect] is a panic. *)
Definition stream_withdraw (s : stream_data) (amount : Z) : res stream_data :=
  let am := s_amounts s in
  let! w := u64_add (withdrawn am) amount in
  let am' := Amounts (start_unlock am) (cliff_unlock am) (deposited am) (refunded am) w in
  let! remaining := u64_sub (deposited am') (refunded am') in
  let dep := remaining <=? w in
  Ok (StreamData am' (s_mint s) (s_bump s) (s_salt s)
        (if dep then false else s_cancelable s)
        (if dep then true else s_depleted s)
        (s_times s) (s_sender s) (s_canceled s)).

(** ** Status *)

(** programs/lockup/src/instructions/view/status_of.rs:40-47 *)
Inductive status := Pending | Streaming | Settled | Canceled | Depleted.

(** programs/lockup/src/instructions/view/status_of.rs:7-38 *)
Definition status_of (now : Z) (s : stream_data) : res status :=
  if s_depleted s then Ok Depleted
  else if s_canceled s then Ok Canceled
  else if now <? t_start (s_times s) then Ok Pending
  else
    let! streamed_amount :=
      get_streamed_amount now (s_times s) (s_amounts s) (s_depleted s) (s_canceled s) in
    if streamed_amount <? deposited (s_amounts s) then Ok Streaming else Ok Settled.
