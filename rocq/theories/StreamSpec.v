(** Independent specification of a linear stream: what the documentation promises, written without
    the model's functions (only the record types are shared). *)
From Verif Require Export LockupMath.

(** ** The terms fixed at creation *)

(** The documented requirements on the parameters of a new stream. *)
Record valid_terms (deposit start cliff end_ start_unlock cliff_unlock : Z) : Prop := {
  vt_deposit : 0 < deposit;
  vt_start : 0 < start;
  vt_order : start < end_;
  vt_cliff : (cliff = 0 /\ cliff_unlock = 0) \/ (start < cliff /\ cliff < end_);
  vt_unlocks : start_unlock + cliff_unlock <= deposit }.

(** ** The schedule as a function of time *)

(** Where the linear part starts: at the cliff if there is one. *)
Definition linear_start (start cliff : Z) : Z := if cliff =? 0 then start else cliff.

(** The amount unlocked at time [now]: nothing before the start, the start unlock until the cliff,
    everything from the end on, and in between the unlocks plus the elapsed share (kept to 18 decimal
    places, rounded down) of the rest. *)
Definition schedule (deposit start cliff end_ start_unlock cliff_unlock now : Z) : Z :=
  if now <? start then 0
  else if now <? cliff then start_unlock
  else if end_ <=? now then deposit
  else
    let from := linear_start start cliff in
    let rest := deposit - (start_unlock + cliff_unlock) in
    start_unlock + cliff_unlock + (((now - from) * 10 ^ 18 / (end_ - from)) * rest) / 10 ^ 18.

Definition stream_schedule (s : stream_data) (now : Z) : Z :=
  schedule (deposited (s_amounts s)) (t_start (s_times s)) (t_cliff (s_times s)) (t_end (s_times s))
    (start_unlock (s_amounts s)) (cliff_unlock (s_amounts s)) now.

(** What a recipient is entitled to at [now], canceled and depleted streams included. *)
Definition entitled (s : stream_data) (now : Z) : Z :=
  if s_depleted s then withdrawn (s_amounts s)
  else if s_canceled s then deposited (s_amounts s) - refunded (s_amounts s)
  else stream_schedule s now.

(** ** The invariant of stream accounts *)
Record stream_ok (s : stream_data) : Prop := {
  so_terms : valid_terms (deposited (s_amounts s)) (t_start (s_times s)) (t_cliff (s_times s)) (t_end (s_times s))
               (start_unlock (s_amounts s)) (cliff_unlock (s_amounts s));
  so_su : 0 <= start_unlock (s_amounts s);
  so_cu : 0 <= cliff_unlock (s_amounts s);
  so_deposit_max : deposited (s_amounts s) <= U64_MAX;
  so_end_max : t_end (s_times s) <= U64_MAX;
  so_cliff_nonneg : 0 <= t_cliff (s_times s);
  so_refunded : 0 <= refunded (s_amounts s);
  so_withdrawn : 0 <= withdrawn (s_amounts s);
  so_budget : withdrawn (s_amounts s) + refunded (s_amounts s) <= deposited (s_amounts s);
  so_depleted : s_depleted s = true <-> withdrawn (s_amounts s) + refunded (s_amounts s) = deposited (s_amounts s);
  so_canceled : s_canceled s = true <-> 0 < refunded (s_amounts s);
  so_flags : s_canceled s = true \/ s_depleted s = true -> s_cancelable s = false }.
