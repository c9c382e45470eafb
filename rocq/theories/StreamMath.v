(** The streaming arithmetic meets its specification. *)
From Verif Require Export StreamSpec Tactics.

Lemma pow18 : 10 ^ 18 = SCALING_FACTOR.
Proof. done. Qed.

Lemma sf_pos : 0 < SCALING_FACTOR.
Proof. done. Qed.

(** Share of [rest] for [e] elapsed out of [t]. *)
Definition share (e t rest : Z) : Z := (e * SCALING_FACTOR / t * rest) / SCALING_FACTOR.

Lemma pct_bounds e t : 0 < t -> 0 <= e <= t -> 0 <= e * SCALING_FACTOR / t <= SCALING_FACTOR.
Proof.
  intros Ht He. pose proof sf_pos. split.
  - apply Z.div_pos; nia.
  - apply Z.div_le_upper_bound; nia.
Qed.

Lemma share_bounds e t rest : 0 < t -> 0 <= e <= t -> 0 <= rest -> 0 <= share e t rest <= rest.
Proof.
  intros Ht He Hr. unfold share. pose proof sf_pos. pose proof (pct_bounds e t Ht He). split.
  - apply Z.div_pos; nia.
  - apply Z.div_le_upper_bound; nia.
Qed.

Lemma share_mono e e' t rest : 0 < t -> 0 <= e <= e' -> 0 <= rest -> share e t rest <= share e' t rest.
Proof.
  intros Ht He Hr. unfold share. pose proof sf_pos. apply Z.div_le_mono; [done|].
  apply Z.mul_le_mono_nonneg_r; [done|]. apply Z.div_le_mono; [done|]. nia.
Qed.

(** The share is at most the exact one and lags by less than [1 + rest / 10^18]. *)
Lemma share_exact e t rest : 0 < t -> 0 <= e -> 0 <= rest ->
  share e t rest * t <= e * rest /\
  e * rest * SCALING_FACTOR < share e t rest * t * SCALING_FACTOR + t * (SCALING_FACTOR + rest).
Proof.
  intros Ht He Hr. unfold share. pose proof sf_pos as Hs.
  set (q := e * SCALING_FACTOR / t).
  pose proof (Z.mul_div_le (e * SCALING_FACTOR) t Ht) as A1.
  pose proof (Z.mul_succ_div_gt (e * SCALING_FACTOR) t Ht) as A2. fold q in A1, A2.
  pose proof (Z.mul_div_le (q * rest) SCALING_FACTOR Hs) as B1.
  pose proof (Z.mul_succ_div_gt (q * rest) SCALING_FACTOR Hs) as B2.
  set (p := q * rest / SCALING_FACTOR) in *.
  assert (0 <= q) by (apply Z.div_pos; nia).
  split.
  - apply (Z.mul_le_mono_pos_r _ _ SCALING_FACTOR); [done|].
    transitivity (t * q * rest); [|nia]. nia.
  - assert (e * SCALING_FACTOR * rest <= t * (q + 1) * rest) by nia. nia.
Qed.

Lemma stream_ok_unlocks s : stream_ok s ->
  0 <= start_unlock (s_amounts s) + cliff_unlock (s_amounts s) <= deposited (s_amounts s).
Proof. intros [[]]. lia. Qed.

Lemma linear_start_bounds start cliff end_ cu : 0 < start < end_ -> (cliff = 0 /\ cu = 0) \/ (start < cliff /\ cliff < end_) ->
  start <= linear_start start cliff < end_ /\ cliff <= linear_start start cliff.
Proof.
  intros ? [[-> ->]|?]; unfold linear_start; [rewrite Z.eqb_refl; lia|].
  destruct (cliff =? 0) eqn:?; bools; lia.
Qed.

Lemma schedule_interior deposit start cliff end_ su cu now :
  start <= now -> cliff <= now -> now < end_ ->
  schedule deposit start cliff end_ su cu now =
  su + cu + share (now - linear_start start cliff) (end_ - linear_start start cliff) (deposit - (su + cu)).
Proof.
  intros. unfold schedule, share.
  rewrite (proj2 (Z.ltb_ge now start)), (proj2 (Z.ltb_ge now cliff)), (proj2 (Z.leb_gt end_ now)) by lia.
  cbv zeta. by rewrite pow18.
Qed.

Lemma schedule_bounds deposit start cliff end_ su cu now :
  valid_terms deposit start cliff end_ su cu -> 0 <= su -> 0 <= cu ->
  0 <= schedule deposit start cliff end_ su cu now <= deposit.
Proof.
  intros [H1 H2 H3 H4 H5] Hsu Hcu.
  destruct (Z.ltb_spec now start) as [|Hs]; [unfold schedule; rewrite (proj2 (Z.ltb_lt now start)) by lia; lia|].
  destruct (Z.ltb_spec now cliff) as [|Hc].
  { unfold schedule. rewrite (proj2 (Z.ltb_ge now start)), (proj2 (Z.ltb_lt now cliff)) by lia. lia. }
  destruct (Z.leb_spec end_ now) as [|He].
  { unfold schedule. rewrite (proj2 (Z.ltb_ge now start)), (proj2 (Z.ltb_ge now cliff)), (proj2 (Z.leb_le end_ now)) by lia. lia. }
  rewrite schedule_interior by lia.
  pose proof (linear_start_bounds start cliff end_ cu ltac:(lia) H4).
  pose proof (share_bounds (now - linear_start start cliff) (end_ - linear_start start cliff) (deposit - (su + cu))
    ltac:(lia)). 
  assert (linear_start start cliff <= now) by (unfold linear_start in *; destruct (cliff =? 0); lia).
  lia.
Qed.

Lemma schedule_mono deposit start cliff end_ su cu now now' :
  valid_terms deposit start cliff end_ su cu -> 0 <= su -> 0 <= cu -> now <= now' ->
  schedule deposit start cliff end_ su cu now <= schedule deposit start cliff end_ su cu now'.
Proof.
  intros Hv Hsu Hcu Hle. pose proof Hv as [H1 H2 H3 H4 H5].
  pose proof (schedule_bounds _ _ _ _ _ _ now Hv Hsu Hcu).
  pose proof (schedule_bounds _ _ _ _ _ _ now' Hv Hsu Hcu).
  destruct (Z.ltb_spec now start) as [|Hs].
  { unfold schedule at 1. rewrite (proj2 (Z.ltb_lt now start)) by lia. lia. }
  destruct (Z.leb_spec end_ now') as [|He].
  { unfold schedule at 2. rewrite (proj2 (Z.ltb_ge now' start)), (proj2 (Z.ltb_ge now' cliff)), (proj2 (Z.leb_le end_ now')) by lia. lia. }
  pose proof (linear_start_bounds start cliff end_ cu ltac:(lia) H4).
  destruct (Z.ltb_spec now cliff) as [|Hc].
  { unfold schedule at 1. rewrite (proj2 (Z.ltb_ge now start)), (proj2 (Z.ltb_lt now cliff)) by lia.
    destruct (Z.ltb_spec now' cliff) as [|Hc'].
    - unfold schedule. rewrite (proj2 (Z.ltb_ge now' start)), (proj2 (Z.ltb_lt now' cliff)) by lia. lia.
    - rewrite schedule_interior by lia.
      pose proof (share_bounds (now' - linear_start start cliff) (end_ - linear_start start cliff) (deposit - (su + cu)) ltac:(lia)).
      assert (linear_start start cliff <= now') by (unfold linear_start in *; destruct (cliff =? 0); lia). lia. }
  rewrite !schedule_interior by lia.
  pose proof (share_mono (now - linear_start start cliff) (now' - linear_start start cliff) (end_ - linear_start start cliff) (deposit - (su + cu)) ltac:(lia)).
  assert (linear_start start cliff <= now) by (unfold linear_start in *; destruct (cliff =? 0); lia).
  lia.
Qed.

(** ** The code computes the schedule *)

Lemma streamed_schedule s now :
  stream_ok s -> 0 <= now <= U64_MAX -> s_depleted s = false -> s_canceled s = false ->
  get_streamed_amount now (s_times s) (s_amounts s) (s_depleted s) (s_canceled s) = Ok (stream_schedule s now).
Proof.
  intros Hok Hnow Hd Hc. rewrite Hd, Hc.
  destruct Hok as [[H1 H2 H3 H4 H5] Hsu Hcu Hdm Hem Hcn _ _ _ _ _ _].
  unfold stream_schedule. destruct s as [[su cu dep ref wd] mi bu sa ca de [cl en st] se xa]; simpl in *.
  unfold get_streamed_amount, schedule; cbn [t_start t_cliff t_end start_unlock cliff_unlock deposited refunded withdrawn].
  destruct (now <? st) eqn:E1; [done|]. destruct (now <? cl) eqn:E2; [done|].
  destruct (en <=? now) eqn:E3; [done|]. bools. cbv zeta.
  rewrite u64_add_le by (unfold U64_MAX in *; lia). cbn [rbind].
  fold (linear_start st cl).
  pose proof (linear_start_bounds st cl en cu ltac:(lia) H4) as [Hl Hl'].
  assert (Hll : linear_start st cl <= now) by (unfold linear_start in *; destruct (cl =? 0); lia).
  set (ls := linear_start st cl) in *.
  destruct (dep <=? su + cu) eqn:E4; bools.
  { assert (dep - (su + cu) = 0) as -> by lia. rewrite Z.mul_0_r. f_equal. rewrite Z.div_0_l; lia. }
  rewrite u64_sub_le by lia. cbn [rbind].
  assert (HS : SCALING_FACTOR = 1000000000000000000) by done.
  assert (HU : U64_MAX = 18446744073709551615) by done.
  assert (HV : U128_MAX = 340282366920938463463374607431768211455) by done.
  assert (HP : 1000000000000000000 = 10 ^ 18) by done.
  rewrite u128_mul_le by nia. cbn [rbind]. rewrite u64_sub_le by lia. cbn [rbind].
  rewrite u128_div_ne by lia. cbn [rbind]. rewrite u64_sub_le by lia. cbn [rbind].
  pose proof (pct_bounds (now - ls) (en - ls) ltac:(lia) ltac:(lia)).
  rewrite u128_mul_le by nia. cbn [rbind].
  pose proof (share_bounds (now - ls) (en - ls) (dep - (su + cu)) ltac:(lia) ltac:(lia) ltac:(lia)) as Hsb.
  unfold share in Hsb.
  rewrite as_u64_small by lia. rewrite u64_add_le by lia. cbn [rbind].
  rewrite (proj2 (Z.ltb_ge dep _)) by lia. rewrite HS. change (10 ^ 18) with 1000000000000000000. done.
Qed.

Lemma streamed_entitled s now :
  stream_ok s -> 0 <= now <= U64_MAX ->
  get_streamed_amount now (s_times s) (s_amounts s) (s_depleted s) (s_canceled s) = Ok (entitled s now).
Proof.
  intros Hok Hnow. unfold entitled.
  destruct (s_depleted s) eqn:Hd; [done|]. destruct (s_canceled s) eqn:Hc.
  - simpl. destruct Hok. rewrite u64_sub_le by lia. done.
  - pose proof (streamed_schedule s now Hok Hnow Hd Hc) as H. by rewrite Hd, Hc in H.
Qed.

Lemma stream_schedule_bounds s now : stream_ok s -> 0 <= stream_schedule s now <= deposited (s_amounts s).
Proof. intros []. by apply schedule_bounds. Qed.

Lemma entitled_bounds s now : stream_ok s ->
  0 <= entitled s now <= deposited (s_amounts s) - refunded (s_amounts s).
Proof.
  intros Hok. unfold entitled. pose proof (stream_schedule_bounds s now Hok). pose proof (so_canceled _ Hok). destruct Hok.
  destruct (s_depleted s); [lia|]. destruct (s_canceled s) eqn:?; [lia|].
  assert (~ 0 < refunded (s_amounts s)) by (intros ?; naive_solver). lia.
Qed.

Lemma entitled_mono s now now' : stream_ok s -> now <= now' -> entitled s now <= entitled s now'.
Proof.
  intros Hok Hle. unfold entitled. destruct Hok.
  destruct (s_depleted s); [lia|]. destruct (s_canceled s); [lia|]. by apply schedule_mono.
Qed.
