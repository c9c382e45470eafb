(** C76: waiting never costs the recipient and never pays the sender. *)
From Verif Require Export PropOrder PropLog.

(** What the withdrawals reported during [tr] took out of stream [k]. *)
Definition taken (k : key) (tr : trace) : Z := sum_of withdraw_amount (log_of k (events tr)).

Lemma events_app tr tr' : events (tr ++ tr') = events tr ++ events tr'.
Proof. unfold events. by rewrite flat_map_app. Qed.
Lemma log_of_app k l l' : log_of k (l ++ l') = log_of k l ++ log_of k l'.
Proof. unfold log_of. by rewrite List.filter_app. Qed.

(** The recorded withdrawn amount grows by what the log reports. *)
Lemma withdrawn_grows E w tr w' k s s' : env_ok E -> reachable_fwd E w -> run E forward_clock w tr w' ->
  wdat w !! k = Some (DStream s) -> wdat w' !! k = Some (DStream s') ->
  withdrawn (s_amounts s') = withdrawn (s_amounts s) + taken k tr.
Proof.
  intros HE [_ [tr0 Hh]] Hr Hk Hk'. pose proof (history_run _ _ _ _ _ _ Hh Hr) as Hh'.
  destruct (C56_log_tells_streams E tr0 w k HE (history_any _ _ _ _ Hh)) as [H1 _].
  destruct (C56_log_tells_streams E (tr0 ++ tr) w' k HE (history_any _ _ _ _ Hh')) as [H2 _].
  rewrite (lm_withdrawn _ _ _ _ (H2 _ Hk')), (lm_withdrawn _ _ _ _ (H1 _ Hk)).
  unfold taken. by rewrite events_app, log_of_app, sum_of_app.
Qed.

Lemma withdrawable_inv E k nft w y : withdrawable_amount_of E k nft w = Ok y ->
  exists s x, stream_view E k nft w = Ok s /\ streamed_amount_of E k nft w = Ok x /\ y = x - withdrawn (s_amounts s).
Proof.
  unfold withdrawable_amount_of, streamed_amount_of. destruct (stream_view E k nft w) as [s|] eqn:Hv; [|done]. cbn [rbind].
  unfold get_withdrawable_amount. destruct (get_streamed_amount _ _ _ _ _) as [x|] eqn:Hx; [|done]. cbn [rbind].
  unfold u64_sub. destruct (_ <=? _); [|done]. intros [= <-]. exists s, x. split_and!; done.
Qed.

(** ** The recipient *)

(** In every history with a clock that does not go back, whatever anybody does in between (the sender may cancel), what can
    be withdrawn from a stream falls by no more than what is reported as withdrawn. *)
Theorem C76_recipient_may_wait : forall E w tr w' k nft y y',
  env_ok E -> reachable_fwd E w -> run E forward_clock w tr w' ->
  withdrawable_amount_of E k nft w = Ok y -> withdrawable_amount_of E k nft w' = Ok y' ->
  y - taken k tr <= y'.
Proof.
  intros E w tr w' k nft y y' HE Hw Hr Hy Hy'.
  apply withdrawable_inv in Hy as (s & x & Hv & Hx & ->). apply withdrawable_inv in Hy' as (s' & x' & Hv' & Hx' & ->).
  destruct (stream_view_inv _ _ _ _ _ Hv) as (Hk & _ & _). destruct (stream_view_inv _ _ _ _ _ Hv') as (Hk' & [m Hm] & _).
  pose proof (withdrawn_grows _ _ _ _ _ _ _ HE Hw Hr Hk Hk') as Hg.
  assert (later_fwd E w w') as Hl by (exists tr; split; [exact Hr|exact (proj1 Hw)]).
  destruct (C02_monotone_history E w w' k nft x HE (fwd_reachable _ _ Hw) Hl Hx (ex_intro _ m Hm)) as (x2 & Hx2 & Hle).
  rewrite Hx' in Hx2. injection Hx2 as <-. lia.
Qed.

(** So a withdrawal that is in range now is in range at any later time until the withdrawals in between use it up: no delay
    and no act of others makes it an overdraw. *)
Theorem C76_delayed_withdraw : forall E w tr w' sg a n fee s y,
  env_ok E -> reachable_fwd E w -> run E forward_clock w tr w' ->
  withdrawable_amount_of E (wa_stream a) (wa_nft_mint a) w = Ok y -> 1 <= n <= y - taken (wa_stream a) tr ->
  withdraw_ready E w' sg a n fee s ->
  exists w2 evs, lockup_exec E sg (LWithdraw a n) w' = Ok (w2, evs).
Proof.
  intros E w tr w' sg a n fee s y HE Hw Hr Hy Hn Hready.
  assert (later_fwd E w w') as Hl by (exists tr; split; [exact Hr|exact (proj1 Hw)]).
  pose proof (reachable_fwd_later _ _ _ HE Hw Hl) as Hw'.
  destruct (C18_views_answer E w' (wa_stream a) (wa_nft_mint a) s HE Hw' (wr_stream _ _ _ _ _ _ _ Hready))
    as (_ & x' & y' & z' & st & _ & Hy' & _).
  pose proof (C76_recipient_may_wait _ _ _ _ _ _ _ _ HE Hw Hr Hy Hy') as Hle.
  apply (C19_withdraw_succeeds E w' sg a n fee s y' HE Hw' Hready Hy'). lia.
Qed.

(** ** The sender *)

(** What a cancel would refund never grows. *)
Theorem C76_sender_gains_nothing : forall E w w' k nft s z z',
  env_ok E -> reachable_fwd E w -> later_fwd E w w' -> stream_at E w k nft s ->
  refundable_amount_of E k nft w = Ok z -> refundable_amount_of E k nft w' = Ok z' ->
  0 <= z' <= z.
Proof.
  intros E w w' k nft s z z' HE Hw Hl Hs Hz Hz'.
  pose proof (reachable_fwd_later _ _ _ HE Hw Hl) as Hw'.
  pose proof (later_fwd_later _ _ _ Hl) as Hla.
  destruct (later_stream _ _ _ _ _ _ HE (reachable_fwd_inv _ _ HE Hw) Hla Hs) as (s' & Hs' & Ht).
  destruct (C18_views_answer _ _ _ _ _ HE Hw Hs) as (Hv & x & y & z0 & st & Hx & Hy & Hz0 & _ & Hyx & _ & Hz0' & _).
  destruct (C18_views_answer _ _ _ _ _ HE Hw' Hs') as (Hv' & x' & y' & z1 & st' & Hx' & Hy' & Hz1 & _ & Hyx' & _ & Hz1' & _).
  rewrite Hz in Hz0. injection Hz0 as <-. rewrite Hz' in Hz1. injection Hz1 as <-. split; [done|].
  destruct (C57_accounting E w k nft s y z HE Hw Hs Hy Hz) as (Ha & _ & _).
  destruct (C57_accounting E w' k nft s' y' z' HE Hw' Hs' Hy' Hz') as (Ha' & _ & Hb').
  destruct (s_cancelable s') eqn:Hc'; [|rewrite Hb' by done; done].
  destruct (s_cancelable s) eqn:Hc.
  - destruct (Ha eq_refl) as [Ha1 _]. destruct (Ha' eq_refl) as [Ha2 _].
    destruct (stream_view_inv _ _ _ _ _ Hv') as (_ & Hm & _).
    destruct (C02_monotone_history E w w' k nft x HE (fwd_reachable _ _ Hw) Hl Hx Hm) as (x2 & Hx2 & Hle).
    rewrite Hx' in Hx2. injection Hx2 as <-.
    assert (deposited (s_amounts s') = deposited (s_amounts s)) as Hd by (destruct Ht as (?&?&?&?&?&?&?); congruence). lia.
  - destruct (C14_irreversible E w w' k s HE (fwd_reachable _ _ Hw) (proj1 Hs) Hc Hla) as ((s2 & Hk2 & Hc2 & _) & _).
    rewrite (proj1 Hs') in Hk2. injection Hk2 as <-. congruence.
Qed.

(** A cancel at a later time refunds no more than the refundable amount of now. *)
Theorem C76_delayed_cancel : forall E w w' sg a w2 evs z s,
  env_ok E -> reachable_fwd E w -> later_fwd E w w' -> stream_at E w (xa_stream a) (xa_nft_mint a) s ->
  refundable_amount_of E (xa_stream a) (xa_nft_mint a) w = Ok z ->
  lockup_exec E sg (LCancel a) w' = Ok (w2, evs) ->
  exists q r, evs = [EvCancel (xa_mint a) q r (xa_stream a) (xa_nft_mint a)] /\ 0 < r <= z.
Proof.
  intros E w w' sg a w2 evs z s HE Hw Hl Hs Hz Hx.
  pose proof (reachable_fwd_later _ _ _ HE Hw Hl) as Hw'.
  destruct (C18_refundable_is_refund E sg a w' w2 evs HE (fwd_reachable _ _ Hw') Hx) as (r & q & Hr & Hpos & _ & Hev & _).
  destruct (C76_sender_gains_nothing E w w' _ _ s z r HE Hw Hl Hs Hz Hr). exists q, r. split; [done|lia].
Qed.

(** ** A concrete case: stream 1 at 1400 and after withdrawal, cancellation and renouncement of the script *)
Example C76_example :
  reachable_fwd E0 (T 1400 w1) /\ run E0 forward_clock (T 1400 w1) (skipn 1 tr_2 ++ tr_3) w3 /\
  taken (kStream kSender 1) (skipn 1 tr_2 ++ tr_3) = 150 /\
  withdrawable_amount_of E0 (kStream kSender 1) (kNft kSender 1) (T 1400 w1) = Ok 362 /\
  withdrawable_amount_of E0 (kStream kSender 1) (kNft kSender 1) w3 = Ok 425 /\
  refundable_amount_of E0 (kStream kSender 1) (kNft kSender 1) (T 1400 w1) = Ok 638 /\
  refundable_amount_of E0 (kStream kSender 1) (kNft kSender 1) w3 = Ok 0.
Proof.
  split; [apply (T_fwd 1400 tr1); [apply w1_hist|vm_compute; reflexivity..]|].
  split.
  - assert (script E0 (skipn 1 script2 ++ script3) (T 1400 w1) = w3) as Hw3.
    { destruct stage2 as (_ & _ & H2). destruct stage3 as (_ & _ & H3). rewrite <- H3, <- H2. reflexivity. }
    assert (script_trace E0 (skipn 1 script2 ++ script3) (T 1400 w1) = skipn 1 tr_2 ++ tr_3) as Htr.
    { destruct stage2 as (_ & H2 & H2'). destruct stage3 as (_ & H3 & _). rewrite <- H3, <- H2, <- H2'. reflexivity. }
    rewrite <- Hw3, <- Htr. apply script_run; [apply E0_ok| | |vm_compute; reflexivity].
    + apply (E0_sane _ (tr1 ++ [(AOthers, [])])). apply (history_script [CT 1400] tr1 w1 w1_hist). vm_compute. reflexivity.
    + apply (E0_keys _ (tr1 ++ [(AOthers, [])])). apply (history_script [CT 1400] tr1 w1 w1_hist). vm_compute. reflexivity.
  - split_and!; vm_compute; reflexivity.
Qed.

Print Assumptions C76_recipient_may_wait.
Print Assumptions C76_delayed_withdraw.
Print Assumptions C76_sender_gains_nothing.
Print Assumptions C76_delayed_cancel.
