(** C87: only the time elapsed matters, not the date. *)
From Verif Require Export PropSettle.
From Verif Require Import PropSchedule PropStream ToyRun Lockup.

(** ** Statement *)
(** The same terms, [d] seconds later (no cliff stays no cliff). *)
Record terms_later (d : Z) (s s' : stream_data) : Prop := {
  tl_deposit : deposited (s_amounts s') = deposited (s_amounts s);
  tl_start_unlock : start_unlock (s_amounts s') = start_unlock (s_amounts s);
  tl_cliff_unlock : cliff_unlock (s_amounts s') = cliff_unlock (s_amounts s);
  tl_start : t_start (s_times s') = t_start (s_times s) + d;
  tl_end : t_end (s_times s') = t_end (s_times s) + d;
  tl_cliff : (t_cliff (s_times s) = 0 /\ t_cliff (s_times s') = 0) \/
             (t_cliff (s_times s) <> 0 /\ t_cliff (s_times s') = t_cliff (s_times s) + d) }.
(** The same condition: as much withdrawn and refunded, and as cancelable. *)
Record same_condition (s s' : stream_data) : Prop := {
  sc_withdrawn : withdrawn (s_amounts s') = withdrawn (s_amounts s);
  sc_refunded : refunded (s_amounts s') = refunded (s_amounts s);
  sc_cancelable : s_cancelable s' = s_cancelable s }.

Lemma schedule_later d s s' now : stream_ok s -> stream_ok s' -> terms_later d s s' ->
  stream_schedule s' (now + d) = stream_schedule s now.
Proof.
  intros K K' [T1 T2 T3 T4 T5 T6]. pose proof (so_terms _ K) as [_ V1 V2 V3 _]. pose proof (so_terms _ K') as [_ V1' V2' V3' _].
  unfold stream_schedule, schedule, linear_start. rewrite T1, T2, T3, T4, T5.
  replace (now + d <? t_start (s_times s) + d) with (now <? t_start (s_times s)) by lia.
  replace (t_end (s_times s) + d <=? now + d) with (t_end (s_times s) <=? now) by lia.
  destruct (Z.ltb_spec now (t_start (s_times s))) as [|Hst]; [reflexivity|].
  destruct T6 as [[C C']|[C C']].
  - rewrite C, C'. change (0 =? 0) with true. cbv iota.
    replace (now + d <? 0) with false by lia. replace (now <? 0) with false by lia.
    replace (now + d - (t_start (s_times s) + d)) with (now - t_start (s_times s)) by lia.
    replace (t_end (s_times s) + d - (t_start (s_times s) + d)) with (t_end (s_times s) - t_start (s_times s)) by lia. reflexivity.
  - rewrite C' in *. rewrite T4, T5 in *.
    replace (t_cliff (s_times s) + d =? 0) with false by lia. replace (t_cliff (s_times s) =? 0) with false by lia.
    replace (now + d <? t_cliff (s_times s) + d) with (now <? t_cliff (s_times s)) by lia.
    replace (now + d - (t_cliff (s_times s) + d)) with (now - t_cliff (s_times s)) by lia.
    replace (t_end (s_times s) + d - (t_cliff (s_times s) + d)) with (t_end (s_times s) - t_cliff (s_times s)) by lia. reflexivity.
Qed.

(** All four views of the two streams agree, each at its time. *)
Theorem C87_views : forall E w w' k nft s k' nft' s' d, env_ok E -> reachable E w -> reachable E w' ->
  stream_at E w k nft s -> stream_at E w' k' nft' s' -> terms_later d s s' -> same_condition s s' ->
  get_current_time w' = get_current_time w + d ->
  streamed_amount_of E k' nft' w' = streamed_amount_of E k nft w /\
  withdrawable_amount_of E k' nft' w' = withdrawable_amount_of E k nft w /\
  refundable_amount_of E k' nft' w' = refundable_amount_of E k nft w /\
  status_of_view E k' nft' w' = status_of_view E k nft w.
Proof.
  intros E w w' k nft s k' nft' s' d HE Hr Hr' Hs Hs' T [W R C] Hnow.
  pose proof (view_at _ _ _ _ _ (reachable_inv _ _ HE Hr) Hs) as V. pose proof (view_at _ _ _ _ _ (reachable_inv _ _ HE Hr') Hs') as V'.
  pose proof (stream_view_inv _ _ _ _ _ V) as (K & _). pose proof (stream_view_inv _ _ _ _ _ V') as (K' & _).
  apply (reachable_stream_ok _ _ _ _ HE Hr) in K. apply (reachable_stream_ok _ _ _ _ HE Hr') in K'.
  pose proof (schedule_later d s s' (get_current_time w) K K' T) as HS. rewrite <- Hnow in HS.
  destruct T as [T1 T2 T3 T4 T5 T6].
  assert (s_depleted s' = s_depleted s) as D.
  { apply Bool.eq_iff_eq_true. rewrite (so_depleted _ K), (so_depleted _ K'), W, R, T1. reflexivity. }
  assert (s_canceled s' = s_canceled s) as X.
  { apply Bool.eq_iff_eq_true. rewrite (so_canceled _ K), (so_canceled _ K'), R. reflexivity. }
  assert (get_streamed_amount (get_current_time w') (s_times s') (s_amounts s') (s_depleted s') (s_canceled s') =
    get_streamed_amount (get_current_time w) (s_times s) (s_amounts s) (s_depleted s) (s_canceled s)) as G.
  { rewrite !streamed_entitled by (exact K || exact K' || apply now_range). unfold entitled. rewrite D, X, W, R, T1, HS. reflexivity. }
  unfold streamed_amount_of, withdrawable_amount_of, refundable_amount_of, status_of_view. rewrite V, V'. cbn [rbind].
  unfold get_withdrawable_amount, get_refundable_amount, status_of. rewrite G, C, D, X, W, T1.
  replace (get_current_time w' <? t_start (s_times s')) with (get_current_time w <? t_start (s_times s)) by lia.
  split_and!; reflexivity.
Qed.

(** Two streams created with the same durations at different times are each other's copies, later by the time between. *)
Theorem C87_created_later : forall E sg1 a1 q1 w1 w1' evs1 sg2 a2 q2 w2 w2' evs2,
  lockup_exec E sg1 (LCreateDur a1 q1) w1 = Ok (w1', evs1) -> lockup_exec E sg2 (LCreateDur a2 q2) w2 = Ok (w2', evs2) ->
  q_deposit q2 = q_deposit q1 -> q_start_unlock q2 = q_start_unlock q1 -> q_cliff_unlock q2 = q_cliff_unlock q1 ->
  q_cliff_duration q2 = q_cliff_duration q1 -> q_total_duration q2 = q_total_duration q1 -> q_cancelable q2 = q_cancelable q1 ->
  exists s1 s2, stream_at E w1' (ca_stream a1) (ca_nft_mint a1) s1 /\ stream_at E w2' (ca_stream a2) (ca_nft_mint a2) s2 /\
    terms_later (get_current_time w2 - get_current_time w1) s1 s2 /\ same_condition s1 s2.
Proof.
  intros E sg1 a1 q1 w1 w1' evs1 sg2 a2 q2 w2 w2' evs2 X1 X2 Q1 Q2 Q3 Q4 Q5 Q6.
  destruct (C06_create_durations _ _ _ _ _ _ _ X1) as [_ O1]. destruct (C06_create_durations _ _ _ _ _ _ _ X2) as [_ O2].
  destruct (co_stream _ _ _ _ _ _ O1) as (s1 & _ & A1 & F1). destruct (co_stream _ _ _ _ _ _ O2) as (s2 & _ & A2 & F2).
  exists s1, s2. split; [exact A1|]. split; [exact A2|].
  pose proof (now_range w1) as N1. pose proof (now_range w2) as N2.
  assert (forall sg a q w x, lockup_exec E sg (LCreateDur a q) w = Ok x -> 0 <= q_cliff_duration q) as Hc.
  { intros sg a q w x X. unfold lockup_exec in X. destruct (lockup_ix_ok (LCreateDur a q)) eqn:Hix; [|discriminate X].
    clear - Hix. unfold lockup_ix_ok in Hix. apply andb_prop in Hix as [_ Hix]. cbn [forallb] in Hix. rewrite !andb_true_iff in Hix.
    destruct Hix as (_ & Hix & _). unfold is_u64 in Hix. lia. }
  specialize (Hc _ _ _ _ _ X1). clear - F1 F2 Q1 Q2 Q3 Q4 Q5 Q6 N1 N2 Hc. destruct F1, F2.
  unfold as_timestamps in *. cbn in *.
  split; split; try congruence.
  - rewrite fs_times, fs_times0. cbn. lia.
  - rewrite fs_times, fs_times0. cbn. lia.
  - rewrite fs_times, fs_times0. cbn. rewrite Q4. destruct (Z.eqb_spec (q_cliff_duration q1) 0); lia.
Qed.

(** Two streams with the same terms, one [d] seconds later: canceled after the same time or never, they have paid the same. *)
Theorem C87_whole_life : forall E C tr1 w1 k1 s1 tr2 w2 k2 s2 d, env_ok E ->
  history E C tr1 w1 -> wdat w1 !! k1 = Some (DStream s1) -> s_depleted s1 = true ->
  history E C tr2 w2 -> wdat w2 !! k2 = Some (DStream s2) -> s_depleted s2 = true ->
  terms_later d s1 s2 ->
  (never_canceled k1 tr1 /\ never_canceled k2 tr2) \/
  (exists t, canceled_at E C k1 tr1 w1 t /\ canceled_at E C k2 tr2 w2 (t + d)) ->
  withdrawn_from k1 tr1 = withdrawn_from k2 tr2 /\ refunded_from k1 tr1 = refunded_from k2 tr2.
Proof.
  intros E C tr1 w1 k1 s1 tr2 w2 k2 s2 d HE H1 K1 D1 H2 K2 D2 T Hc.
  destruct (C83_settlement _ _ _ _ _ _ HE H1 K1) as [A1 B1]. destruct (C83_settlement _ _ _ _ _ _ HE H2 K2) as [A2 B2].
  pose proof (reachable_stream_ok _ _ _ _ HE (ex_intro _ tr1 (history_any _ _ _ _ H1)) K1) as O1.
  pose proof (reachable_stream_ok _ _ _ _ HE (ex_intro _ tr2 (history_any _ _ _ _ H2)) K2) as O2.
  pose proof (tl_deposit _ _ _ T) as TD.
  destruct Hc as [[N1 N2]|(t & X1 & X2)].
  - assert (forall k tr w, never_canceled k tr -> forall t, canceled_at E C k tr w t -> False) as Hno.
    { intros k tr w Hn t (ta & wc & sg & a & evs & wc' & tb & Htr & Ha & _). subst tr. apply Forall_app in Hn as [_ Hn].
      apply Forall_cons in Hn as [Hn _]. cbn in Hn. apply Z.eqb_neq in Hn. exact (Hn Ha). }
    destruct A1 as [(_ & R1 & _ & W1)|[t X]]; [|exfalso; exact (Hno _ _ _ N1 _ X)].
    destruct A2 as [(_ & R2 & _ & W2)|[t X]]; [|exfalso; exact (Hno _ _ _ N2 _ X)].
    apply W1 in D1. apply W2 in D2. split; lia.
  - destruct (B1 _ X1) as (R1 & _ & W1). destruct (B2 _ X2) as (R2 & _ & W2). apply W1 in D1. apply W2 in D2.
    pose proof (schedule_later d s1 s2 t O1 O2 T) as Hs. split; lia.
Qed.

(** ** Non-vacuity *)
(** A stream created with the durations of stream 2 at 5000, and stream 2, created at 1000: 500 seconds later each shows the same. *)
Definition dur5 : create_dur_args := CreateDurArgs 5 3000 0 1000 0 0 true.
Definition w_dur5 : world := lit
  (ltac:(let x := eval vm_compute in (lam_of (script E0 [CT 5000; CL [kSender] (LCreateDur (create_for 5) dur5)] w1)) in exact x))
  (ltac:(let x := eval vm_compute in (dat_of (script E0 [CT 5000; CL [kSender] (LCreateDur (create_for 5) dur5)] w1)) in exact x))
  5000.
Example C87_example : exists s s',
  wdat (T 1500 w1) !! kStream kSender 2 = Some (DStream s) /\ wdat (T 5500 w_dur5) !! kStream kSender 5 = Some (DStream s') /\
  terms_later 4000 s s' /\ same_condition s s' /\
  is_ok (lockup_exec E0 [kSender] (LCreateDur (create_for 5) dur5) (T 5000 w1)) = true /\
  withdrawable_amount_of E0 (kStream kSender 2) (kNft kSender 2) (T 1500 w1) = Ok 1500 /\
  withdrawable_amount_of E0 (kStream kSender 5) (kNft kSender 5) (T 5500 w_dur5) = Ok 1500.
Proof.
  eexists. eexists. split; [vm_compute; reflexivity|]. split; [vm_compute; reflexivity|].
  split; [split; try reflexivity; left; split; reflexivity|]. split; [split; reflexivity|].
  split; [vm_compute; reflexivity|]. split; vm_compute; reflexivity.
Qed.

Print Assumptions C87_views.
Print Assumptions C87_created_later.
Print Assumptions C87_whole_life.
