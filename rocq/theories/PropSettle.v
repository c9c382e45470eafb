(** C83: what a stream pays in its whole life depends on its terms and on the time of its cancellation, and on nothing else. *)
From Verif Require Export PropLog.
From Verif Require Import Lockup.

(** ** The cancellations of stream [k] in a history *)
Definition is_cancel_of (k : key) (x : action * list event) : bool :=
  match fst x with ALockup _ (LCancel a) => xa_stream a =? k | _ => false end.
Definition never_canceled (k : key) (tr : trace) : Prop := Forall (fun x => is_cancel_of k x = false) tr.

(** The life of stream [k] over a history: never canceled, and then nothing is refunded; or canceled by one successful
    call, in the world [wc] and signed by the sender, and then what the schedule had not released at that moment is refunded. *)
Inductive life (E : env) (C : Z -> Z -> Prop) (k : key) (s : stream_data) (tr : trace) (w : world) : Prop :=
| life_uncanceled : never_canceled k tr -> s_canceled s = false -> refunded (s_amounts s) = 0 -> life E C k s tr w
| life_canceled tr1 wc sg a evs wc' tr2 :
    tr = tr1 ++ (ALockup sg (LCancel a), evs) :: tr2 -> xa_stream a = k -> s_sender s ∈ sg ->
    history E C tr1 wc -> step E C wc (ALockup sg (LCancel a)) evs wc' -> run E C wc' tr2 w ->
    never_canceled k tr1 -> never_canceled k tr2 -> s_canceled s = true ->
    refunded (s_amounts s) = deposited (s_amounts s) - stream_schedule s (get_current_time wc) ->
    life E C k s tr w.

Lemma same_terms_schedule s s' t : same_terms s s' -> stream_schedule s' t = stream_schedule s t.
Proof. intros (T1 & T2 & T3 & T4 & T5 & T6 & T7 & T8). unfold stream_schedule. congruence. Qed.

Lemma never_snoc k tr x : never_canceled k tr -> is_cancel_of k x = false -> never_canceled k (tr ++ [x]).
Proof. intros H Hx. apply Forall_app. split; [exact H|]. apply Forall_cons. split; [exact Hx|apply Forall_nil; exact I]. Qed.

(** Keeping the flags, the refund, the terms and the sender keeps the life going. *)
Lemma life_snoc E C k s s' tr w a evs w' : life E C k s tr w -> step E C w a evs w' -> is_cancel_of k (a, evs) = false ->
  s_canceled s' = s_canceled s -> refunded (s_amounts s') = refunded (s_amounts s) -> same_terms s s' ->
  life E C k s' (tr ++ [(a, evs)]) w'.
Proof.
  intros Hl Hs Hn Hc Hr Ht. assert (s_sender s' = s_sender s) as Hse by apply Ht. destruct Hl as [Hnc Hf H0|tr1 wc sg x ev wc' tr2 Htr Hx Hsg Hh Hex Hrun Hn1 Hn2 Hf H0].
  - apply life_uncanceled; [apply never_snoc; assumption|congruence|congruence].
  - eapply (life_canceled _ _ _ _ _ _ tr1 wc sg x ev wc' (tr2 ++ [(a, evs)])).
    + rewrite Htr, <- app_assoc. reflexivity.
    + exact Hx.
    + rewrite Hse. exact Hsg.
    + exact Hh.
    + exact Hex.
    + eapply run_snoc; [exact Hrun|exact Hs].
    + exact Hn1.
    + apply never_snoc; assumption.
    + congruence.
    + rewrite (same_terms_schedule s s' _ Ht). destruct Ht as (T1 & T2 & T3 & T4 & T5 & T6 & T7 & T8). congruence.
Qed.

(** A successful cancellation of [k] finds the stream. *)
Lemma cancel_step E C k w a evs w' : step E C w a evs w' -> is_cancel_of k (a, evs) = true ->
  exists sg x m s vt dt st, a = ALockup sg (LCancel x) /\ xa_stream x = k /\ lockup_exec E sg (LCancel x) w = Ok (w', evs) /\
    cancel_facts E sg x w w' evs m s vt dt st.
Proof.
  intros Hs Hc. destruct Hs as [sg ix evs w' Hsg Hx|sg ix evs w' Hsg Hx|w' Ho Hcl]; [|discriminate Hc|discriminate Hc].
  destruct ix; try discriminate Hc. cbn in Hc. apply Z.eqb_eq in Hc.
  pose proof Hx as Hx2. apply exec_cancel_inv in Hx2 as (m & s & vt & dt & st & F).
  eexists _, _, m, s, vt, dt, st. split; [reflexivity|]. split; [exact Hc|]. split; [exact Hx|exact F].
Qed.

Lemma cancel_refund E sg x w w' evs m s vt dt st : stream_ok s -> cancel_facts E sg x w w' evs m s vt dt st ->
  st = stream_schedule s (get_current_time w).
Proof.
  intros Hok F. pose proof (cf_streamed _ _ _ _ _ _ _ _ _ _ _ F) as Hst.
  rewrite (streamed_entitled s) in Hst by (exact Hok || apply now_range). injection Hst as <-.
  unfold entitled. rewrite (cf_not_depleted _ _ _ _ _ _ _ _ _ _ _ F), (cf_not_canceled _ _ _ _ _ _ _ _ _ _ _ F). reflexivity.
Qed.

Lemma step_life E C k tr w a evs w' : env_ok E -> inv E w -> history E C tr w -> step E C w a evs w' ->
  match wdat w !! k with Some (DStream s) => life E C k s tr w | _ => never_canceled k tr end ->
  match wdat w' !! k with Some (DStream s) => life E C k s (tr ++ [(a, evs)]) w' | _ => never_canceled k (tr ++ [(a, evs)]) end.
Proof.
  intros HE Hi Hh Hst Hl. pose proof (step_keeps _ _ _ _ _ _ HE (inv_sane _ _ Hi) Hst) as [HL _ _ _].
  destruct (stream_or_not w k) as [[s Hk]|Hno].
  - rewrite Hk in Hl. pose proof (inv_stream_ok _ _ _ _ Hi Hk) as Hok.
    destruct (step_stream _ _ _ _ _ _ _ _ HE (inv_sane _ _ Hi) Hst Hk) as (s' & Hk' & Hch). rewrite Hk'.
    assert (is_cancel_of k (a, evs) = false -> s_canceled s' = s_canceled s -> refunded (s_amounts s') = refunded (s_amounts s) -> same_terms s s' ->
      life E C k s' (tr ++ [(a, evs)]) w') as Hkeep by (intros; eapply life_snoc; eassumption).
    destruct Hch as [(sg & ix & -> & Hsg & Hx & Hclk & Hch)|(Hnl & -> & _)].
    + pose proof (stream_change_terms _ _ _ _ _ _ _ _ _ Hch) as Ht.
      destruct Hch as [ix Hpo|a' st Hka _ _ _ Hcb _ _|a' m vt dt st Hka F _|ix a' am tr' m nt s' vt dt fee wd Hix Ham Hka F _].
      * destruct (is_cancel_of k (ALockup sg ix, evs)) eqn:Hcx; [|apply Hkeep; reflexivity || assumption].
        exfalso. destruct (cancel_step _ _ _ _ _ _ _ Hst Hcx) as (sg1 & x & m & s1 & vt & dt & st & _ & Hxk & _ & F).
        rewrite (cf_evs _ _ _ _ _ _ _ _ _ _ _ F) in Hpo. cbn in Hpo. rewrite Hxk, Z.eqb_refl in Hpo.
        pose proof (cf_lt _ _ _ _ _ _ _ _ _ _ _ F). lia.
      * apply Hkeep; reflexivity || assumption.
      * assert (never_canceled k tr) as Hn.
        { destruct Hl as [Hnc _ _|tr1 wc sg0 x ev wc' tr2 _ _ _ _ _ _ _ _ Hf _]; [exact Hnc|].
          pose proof (cf_not_canceled _ _ _ _ _ _ _ _ _ _ _ F). congruence. }
        eapply (life_canceled _ _ _ _ _ _ tr w sg a' evs w' []).
        -- reflexivity.
        -- exact Hka.
        -- change (s_sender (stream_cancel s (deposited (s_amounts s) - st) (st - withdrawn (s_amounts s)))) with (s_sender s).
           rewrite <- (cf_sender _ _ _ _ _ _ _ _ _ _ _ F). exact (cf_signer _ _ _ _ _ _ _ _ _ _ _ F).
        -- exact Hh.
        -- exact Hst.
        -- constructor.
        -- exact Hn.
        -- apply Forall_nil. exact I.
        -- reflexivity.
        -- rewrite (same_terms_schedule s _ _ Ht), <- (cancel_refund _ _ _ _ _ _ _ _ _ _ _ Hok F). reflexivity.
      * pose proof (wf_new _ _ _ _ _ _ _ _ _ _ _ _ _ _ _ _ F) as Hn1. apply stream_withdraw_ok in Hn1 as (_ & _ & Hs').
        apply Hkeep; [|rewrite Hs'; reflexivity|rewrite Hs'; reflexivity|exact Ht].
        destruct Hix as [->|[-> _]]; reflexivity.
    + apply Hkeep; [|reflexivity|reflexivity|apply same_terms_refl]. destruct a; [discriminate Hnl|reflexivity|reflexivity].
  - assert (never_canceled k tr) as Hn by (destruct (wdat w !! k) as [[]|]; try assumption; exfalso; exact (Hno s eq_refl)).
    assert (is_cancel_of k (a, evs) = false) as Hcx.
    { destruct (is_cancel_of k (a, evs)) eqn:Hcx; [|reflexivity]. exfalso.
      destruct (cancel_step _ _ _ _ _ _ _ Hst Hcx) as (sg1 & x & m & s1 & vt & dt & st & _ & Hxk & _ & F).
      apply (Hno s1). rewrite <- Hxk. exact (cf_stream _ _ _ _ _ _ _ _ _ _ _ F). }
    pose proof (never_snoc _ _ _ Hn Hcx) as Hn'.
    destruct (stream_or_not w' k) as [[s' Hk']|Hno']; [|destruct (wdat w' !! k) as [[]|]; try assumption; exfalso; exact (Hno' s eq_refl)].
    rewrite Hk'. destruct Hst as [sg ix evs w' Hsg Hx|sg ix evs w' Hsg Hx|w' Ho Hc].
    + destruct (lockup_exec_effect _ _ _ _ _ _ Hx) as [_ Heff].
      destruct (lockup_new_stream _ _ _ _ _ _ _ _ Heff Hk') as [[s0 ?]|(x & p & ct & nc & cm & dm & sb & name & c0 & c1 & _ & _ & F & _)]; [by destruct (Hno s0)|].
      pose proof (rf_s _ _ _ _ _ _ _ _ _ _ _ _ _ _ _ _ F) as Hs. apply life_uncanceled; [exact Hn'|rewrite Hs; reflexivity|rewrite Hs; reflexivity].
    + exfalso. apply (Hno s'). apply (untouched_streams E w w'); [apply HL|exact Hk']; reflexivity.
    + exfalso. apply (Hno s'). apply (untouched_streams E w w'); [apply HL|exact Hk']; reflexivity.
Qed.

(** The life of every stream: at most one cancellation, and the refund is what the schedule kept back at that moment. *)
Theorem C83_one_life : forall E C tr w k s, env_ok E -> history E C tr w -> wdat w !! k = Some (DStream s) -> life E C k s tr w.
Proof.
  intros E C tr w k s HE (w00 & Hg & Hr) Hk.
  assert (match wdat w !! k with Some (DStream s) => life E C k s tr w | _ => never_canceled k tr end) as H.
  { clear s Hk. pose proof (genesis_inv _ _ Hg) as Hi. induction Hr as [|tr w1 a evs w2 Hr IH Hs].
    - destruct (wdat w00 !! k) as [[]|] eqn:Hk; try (apply Forall_nil; exact I). exfalso. by pose proof (g_data _ _ Hg _ _ Hk).
    - eapply step_life; [exact HE|by eapply run_inv|exists w00; split; [exact Hg|exact Hr]|exact Hs|exact IH]. }
  rewrite Hk in H. exact H.
Qed.

(** ** Settlement *)
(** Stream [k] was canceled, in the history [tr] to [w], at time [t]. *)
Definition canceled_at (E : env) (C : Z -> Z -> Prop) (k : key) (tr : trace) (w : world) (t : Z) : Prop :=
  exists tr1 wc sg a evs wc' tr2, tr = tr1 ++ (ALockup sg (LCancel a), evs) :: tr2 /\ xa_stream a = k /\
    history E C tr1 wc /\ step E C wc (ALockup sg (LCancel a)) evs wc' /\ run E C wc' tr2 w /\ get_current_time wc = t.

(** The tokens that the log of a history says went out of stream [k] to its recipients, and back to its sender. *)
Definition withdrawn_from (k : key) (tr : trace) : Z := sum_of withdraw_amount (log_of k (events tr)).
Definition refunded_from (k : key) (tr : trace) : Z := sum_of refund_amount (log_of k (events tr)).

Lemma canceled_refund E C k tr w t s : env_ok E -> canceled_at E C k tr w t -> wdat w !! k = Some (DStream s) ->
  refunded (s_amounts s) = deposited (s_amounts s) - stream_schedule s t.
Proof.
  intros HE (tr1 & wc & sg & a & evs & wc' & tr2 & Htr & Ha & Hh & Hs & Hrun & Ht) Hk.
  assert (reachable E wc) as Hrc by (exists tr1; eapply history_any; exact Hh).
  assert (is_cancel_of k (ALockup sg (LCancel a), evs) = true) as Hcx by (cbn; apply Z.eqb_eq; exact Ha).
  destruct (cancel_step _ _ _ _ _ _ _ Hs Hcx) as (sg1 & x & m & s0 & vt & dt & st & Heq & _ & Hx & F). injection Heq as Hsg1 Hx1. subst sg1 x.
  pose proof (cf_stream _ _ _ _ _ _ _ _ _ _ _ F) as Hk0. rewrite Ha in Hk0.
  pose proof (reachable_stream_ok _ _ _ _ HE Hrc Hk0) as Hok0.
  pose proof (cancel_refund _ _ _ _ _ _ _ _ _ _ _ Hok0 F) as Hst.
  set (s1 := stream_cancel s0 (deposited (s_amounts s0) - st) (st - withdrawn (s_amounts s0))).
  assert (wdat wc' !! k = Some (DStream s1)) as Hk1.
  { rewrite <- Ha. eapply payout_own; [exact (cf_pay _ _ _ _ _ _ _ _ _ _ _ F)|exact (cf_vault _ _ _ _ _ _ _ _ _ _ _ F)|rewrite Ha; exact Hk0|reflexivity]. }
  assert (reachable E wc') as Hrc' by (eapply reachable_later; [exact Hrc|eapply step_later; exact Hs]).
  assert (later E wc' w) as Hl by (exists tr2; eapply run_any; exact Hrun).
  destruct (not_cancelable_stays _ _ _ _ _ HE Hrc' Hk1 eq_refl Hl) as (s2 & Hk2 & _ & Hr2 & _ & Ht2).
  rewrite Hk in Hk2. injection Hk2 as <-.
  rewrite Hr2. unfold s1 at 1. cbn. rewrite (same_terms_schedule s1 s t Ht2).
  assert (stream_schedule s1 t = stream_schedule s0 t) as -> by reflexivity.
  destruct Ht2 as (T1 & T2 & T3 & T4 & T5 & T6 & T7 & T8). rewrite T6. unfold s1. cbn. rewrite <- Ht, <- Hst. reflexivity.
Qed.

(** Every history of a stream is one of the two: *)
Theorem C83_settlement : forall E C tr w k s, env_ok E -> history E C tr w -> wdat w !! k = Some (DStream s) ->
  (* it was never canceled: nothing went back, and it is depleted exactly when the whole deposit was withdrawn; *)
  ((never_canceled k tr /\ refunded_from k tr = 0 /\ withdrawn_from k tr <= deposited (s_amounts s) /\
    (s_depleted s = true <-> withdrawn_from k tr = deposited (s_amounts s))) \/
  (* or it was canceled once: what the schedule had released by then is for the recipients, the rest went back. *)
   (exists t, canceled_at E C k tr w t)) /\
  (forall t, canceled_at E C k tr w t ->
    refunded_from k tr = deposited (s_amounts s) - stream_schedule s t /\ withdrawn_from k tr <= stream_schedule s t /\
    (s_depleted s = true <-> withdrawn_from k tr = stream_schedule s t)).
Proof.
  intros E C tr w k s HE Hh Hk. pose proof (history_any _ _ _ _ Hh) as Hany.
  assert (reachable E w) as Hr by (exists tr; exact Hany). pose proof (reachable_stream_ok _ _ _ _ HE Hr Hk) as Hok.
  destruct (C56_log_tells_streams E tr w k HE Hany) as [Hlog _]. specialize (Hlog _ Hk).
  pose proof (lm_withdrawn _ _ _ _ Hlog) as Hw. pose proof (lm_refunded _ _ _ _ Hlog) as Hre.
  fold (withdrawn_from k tr) in Hw. fold (refunded_from k tr) in Hre.
  pose proof (so_budget _ Hok) as Hb. pose proof (so_depleted _ Hok) as Hd.
  split.
  - destruct (C83_one_life _ _ _ _ _ _ HE Hh Hk) as [Hnc Hf H0|tr1 wc sg x ev wc' tr2 Htr Hx Hsg Hh1 Hex Hrun Hn1 Hn2 Hf H0].
    + left. split; [exact Hnc|]. split; [lia|]. split; [lia|]. rewrite Hd. split; lia.
    + right. exists (get_current_time wc), tr1, wc, sg, x, ev, wc', tr2. split; [exact Htr|]. split; [exact Hx|]. split; [exact Hh1|].
      split; [exact Hex|]. split; [exact Hrun|reflexivity].
  - intros t Hc. pose proof (canceled_refund _ _ _ _ _ _ _ HE Hc Hk) as Hrf. split; [lia|]. split; [lia|]. rewrite Hd. split; lia.
Qed.

(** So the totals of a settled stream do not depend on when, by whom, to whom and in what portions it was withdrawn: two
    canceled streams with the same schedule, whatever else happened to them, end with the same totals if they were canceled
    at the same time, and two streams that were never canceled end with the whole deposit withdrawn. *)
Theorem C83_only_the_time_matters : forall E C tr1 w1 k1 s1 tr2 w2 k2 s2, env_ok E ->
  history E C tr1 w1 -> wdat w1 !! k1 = Some (DStream s1) -> s_depleted s1 = true ->
  history E C tr2 w2 -> wdat w2 !! k2 = Some (DStream s2) -> s_depleted s2 = true ->
  s_times s1 = s_times s2 -> deposited (s_amounts s1) = deposited (s_amounts s2) ->
  start_unlock (s_amounts s1) = start_unlock (s_amounts s2) -> cliff_unlock (s_amounts s1) = cliff_unlock (s_amounts s2) ->
  (never_canceled k1 tr1 /\ never_canceled k2 tr2) \/ (exists t, canceled_at E C k1 tr1 w1 t /\ canceled_at E C k2 tr2 w2 t) ->
  withdrawn_from k1 tr1 = withdrawn_from k2 tr2 /\ refunded_from k1 tr1 = refunded_from k2 tr2.
Proof.
  intros E C tr1 w1 k1 s1 tr2 w2 k2 s2 HE H1 K1 D1 H2 K2 D2 T1 T2 T3 T4 Hc.
  destruct (C83_settlement _ _ _ _ _ _ HE H1 K1) as [A1 B1]. destruct (C83_settlement _ _ _ _ _ _ HE H2 K2) as [A2 B2].
  destruct Hc as [[N1 N2]|(t & X1 & X2)].
  - assert (forall k tr w, never_canceled k tr -> forall t, canceled_at E C k tr w t -> False) as Hno.
    { intros k tr w Hn t (ta & wc & sg & a & evs & wc' & tb & Htr & Ha & _). subst tr. apply Forall_app in Hn as [_ Hn].
      apply Forall_cons in Hn as [Hn _]. cbn in Hn. apply Z.eqb_neq in Hn. exact (Hn Ha). }
    destruct A1 as [(_ & R1 & _ & W1)|[t X]]; [|exfalso; exact (Hno _ _ _ N1 _ X)].
    destruct A2 as [(_ & R2 & _ & W2)|[t X]]; [|exfalso; exact (Hno _ _ _ N2 _ X)].
    apply W1 in D1. apply W2 in D2. split; lia.
  - destruct (B1 _ X1) as (R1 & _ & W1). destruct (B2 _ X2) as (R2 & _ & W2). apply W1 in D1. apply W2 in D2.
    assert (stream_schedule s1 t = stream_schedule s2 t) as Hs by (unfold stream_schedule; congruence). split; lia.
Qed.

(** ** Non-vacuity *)
(** Stream 1 of the toy run is canceled at 1600, when 575 of the 1000 tokens are released; it is withdrawn in two portions
    (150 at 1400, to the recipient; 425 at 1700, to a third party), and it is depleted then. Stream 2 is never canceled. *)
Example C83_example :
  history E0 forward_clock tr4 w4 /\
  (exists s, wdat w4 !! kStream kSender 1 = Some (DStream s) /\ s_depleted s = true /\ stream_schedule s 1600 = 575) /\
  withdrawn_from (kStream kSender 1) tr4 = 575 /\ refunded_from (kStream kSender 1) tr4 = 425 /\
  (exists t, canceled_at E0 forward_clock (kStream kSender 1) tr4 w4 t) /\
  never_canceled (kStream kSender 2) tr4 /\ refunded_from (kStream kSender 2) tr4 = 0.
Proof.
  assert (exists s, wdat w4 !! kStream kSender 1 = Some (DStream s) /\ s_depleted s = true /\ stream_schedule s 1600 = 575) as Hs.
  { eexists. split; [vm_compute; reflexivity|]. split; vm_compute; reflexivity. }
  assert (refunded_from (kStream kSender 1) tr4 = 425) as Hre by (vm_compute; reflexivity).
  assert (withdrawn_from (kStream kSender 1) tr4 = 575) as Hw by (vm_compute; reflexivity).
  split; [exact w4_hist|]. split; [exact Hs|]. split; [exact Hw|]. split; [exact Hre|]. split; [|split].
  - destruct Hs as (s & Hk & _). destruct (C83_settlement _ _ _ _ _ _ E0_ok w4_hist Hk) as [[(_ & R & _)|[t X]] _].
    + rewrite Hre in R. discriminate R.
    + exists t. exact X.
  - assert (forallb (fun x => negb (is_cancel_of (kStream kSender 2) x)) tr4 = true) as Hb by (vm_compute; reflexivity).
    apply Forall_forall. intros x Hin%elem_of_list_In. rewrite forallb_forall in Hb. specialize (Hb x Hin).
    destruct (is_cancel_of (kStream kSender 2) x); [discriminate Hb|reflexivity].
  - vm_compute. reflexivity.
Qed.

Lemma run_nil_inv E C w w' : run E C w [] w' -> w' = w.
Proof.
  remember ([] : trace) as l eqn:Hl. intros Hr. revert Hl. destruct Hr as [|tr w1 a evs w2 Hr Hs]; intros Hl; [reflexivity|].
  destruct tr; discriminate Hl.
Qed.
(** The hypotheses of the comparison, met by two different histories: stream 1 is canceled at 1600 in both; in one 150 were
    withdrawn before (at 1400) and the rest goes to a third party at 1700; in the other nothing was withdrawn before, and
    the recipient takes 75 at 1650 and the rest at 1900. *)
Lemma script_canceled_at cs1 sg a evs cs2 tr w : history E0 forward_clock tr w ->
  script_ok E0 cs1 w = true -> script_ok E0 [CL sg (LCancel a)] (script E0 cs1 w) = true ->
  script_trace E0 [CL sg (LCancel a)] (script E0 cs1 w) = [(ALockup sg (LCancel a), evs)] ->
  script_ok E0 cs2 (script E0 [CL sg (LCancel a)] (script E0 cs1 w)) = true ->
  let wc := script E0 cs1 w in let wc' := script E0 [CL sg (LCancel a)] wc in
  let full := (tr ++ script_trace E0 cs1 w) ++ (ALockup sg (LCancel a), evs) :: script_trace E0 cs2 wc' in
  history E0 forward_clock full (script E0 cs2 wc') /\
  canceled_at E0 forward_clock (xa_stream a) full (script E0 cs2 wc') (get_current_time wc).
Proof.
  intros H0 O1 O2 HT O3. cbv zeta.
  pose proof (history_script _ _ _ H0 O1) as H1. pose proof (history_script _ _ _ H1 O2) as H2. rewrite HT in H2.
  pose proof (history_script _ _ _ H2 O3) as H3. rewrite <- app_assoc in H3. cbn [app] in H3. split; [exact H3|].
  pose proof (E0_sane _ _ H1) as Hs. pose proof (E0_keys _ _ H1) as Hk.
  pose proof (script_run E0 [CL sg (LCancel a)] (script E0 cs1 w) E0_ok Hs Hk O2) as Hr1. rewrite HT in Hr1.
  pose proof (script_run E0 cs2 _ E0_ok (E0_sane _ _ H2) (E0_keys _ _ H2) O3) as Hr2.
  exists (tr ++ script_trace E0 cs1 w), (script E0 cs1 w), sg, a, evs, (script E0 [CL sg (LCancel a)] (script E0 cs1 w)),
    (script_trace E0 cs2 (script E0 [CL sg (LCancel a)] (script E0 cs1 w))).
  split; [reflexivity|]. split; [reflexivity|]. split; [exact H1|]. split; [|split; [exact Hr2|reflexivity]].
  remember (script E0 [CL sg (LCancel a)] (script E0 cs1 w)) as wend eqn:Hwe. clear - Hr1.
  remember [(ALockup sg (LCancel a), evs)] as l eqn:Hl. revert Hl. destruct Hr1 as [|tr' w' a' evs' w'' Hr Hst]; intros Hl; [discriminate Hl|].
  destruct tr' as [|x tr']; [|destruct tr'; discriminate Hl]. injection Hl as Ha He. subst a' evs'.
  apply run_nil_inv in Hr. subst w'. exact Hst.
Qed.
Definition early : list cmd := [CT 1600].
Definition late_a : list cmd := [CT 1700; CL [kRecipient] (LWithdrawMax (withdraw_to 1 kOther))].
Definition late_b : list cmd := [CT 1650; CL [kRecipient] (LWithdraw (withdraw_to 1 kRecipient) 75); CT 1900; CL [kRecipient] (LWithdrawMax (withdraw_to 1 kRecipient))].
Definition cancel_1 : list cmd := [CL [kSender] (LCancel (cancel_of 1))].
Example C83_example_comparison : exists tra wa sa trb wb sb,
  history E0 forward_clock tra wa /\ wdat wa !! kStream kSender 1 = Some (DStream sa) /\ s_depleted sa = true /\
  history E0 forward_clock trb wb /\ wdat wb !! kStream kSender 1 = Some (DStream sb) /\ s_depleted sb = true /\
  canceled_at E0 forward_clock (kStream kSender 1) tra wa 1600 /\ canceled_at E0 forward_clock (kStream kSender 1) trb wb 1600 /\
  map withdraw_amount (log_of (kStream kSender 1) (events tra)) = [0; 150; 0; 425] /\
  map withdraw_amount (log_of (kStream kSender 1) (events trb)) = [0; 0; 75; 500] /\
  s_times sa = s_times sb /\ s_amounts sa = s_amounts sb.
Proof.
  assert (forall ws tr cs2, history E0 forward_clock tr ws -> script_ok E0 early ws = true ->
    script_ok E0 cancel_1 (script E0 early ws) = true ->
    (exists q n, script_trace E0 cancel_1 (script E0 early ws) =
      [(ALockup [kSender] (LCancel (cancel_of 1)), [EvCancel kToken q n (kStream kSender 1) (kNft kSender 1)])]) ->
    script_ok E0 cs2 (script E0 cancel_1 (script E0 early ws)) = true -> get_current_time (script E0 early ws) = 1600 ->
    exists evs, let full := (tr ++ script_trace E0 early ws) ++ (ALockup [kSender] (LCancel (cancel_of 1)), evs) ::
        script_trace E0 cs2 (script E0 cancel_1 (script E0 early ws)) in
      script_trace E0 cancel_1 (script E0 early ws) = [(ALockup [kSender] (LCancel (cancel_of 1)), evs)] /\
      history E0 forward_clock full (script E0 cs2 (script E0 cancel_1 (script E0 early ws))) /\
      canceled_at E0 forward_clock (kStream kSender 1) full (script E0 cs2 (script E0 cancel_1 (script E0 early ws))) 1600) as Hmk.
  { intros ws tr cs2 H O1 O2 (q & n & HT) O3 Hnow. eexists. cbv zeta. split; [exact HT|].
    destruct (script_canceled_at early _ _ _ cs2 tr ws H O1 O2 HT O3) as [A B]. split; [exact A|].
    rewrite Hnow in B. exact B. }
  destruct (Hmk w2 tr2 late_a w2_hist) as (evsa & HTa & HA & CA);
    [vm_compute; reflexivity|vm_compute; reflexivity|eexists _, _; vm_compute; reflexivity|vm_compute; reflexivity|vm_compute; reflexivity|].
  destruct (Hmk w1 tr1 late_b w1_hist) as (evsb & HTb & HB & CB);
    [vm_compute; reflexivity|vm_compute; reflexivity|eexists _, _; vm_compute; reflexivity|vm_compute; reflexivity|vm_compute; reflexivity|].
  assert (evsa = flat_map snd (script_trace E0 cancel_1 (script E0 early w2))) as Ea by (rewrite HTa; cbn; symmetry; apply app_nil_r).
  assert (evsb = flat_map snd (script_trace E0 cancel_1 (script E0 early w1))) as Eb by (rewrite HTb; cbn; symmetry; apply app_nil_r).
  subst evsa evsb. clear HTa HTb Hmk. do 2 eexists. eexists. do 2 eexists. eexists.
  split; [exact HA|]. split; [vm_compute; reflexivity|]. split; [reflexivity|].
  split; [exact HB|]. split; [vm_compute; reflexivity|]. split; [reflexivity|].
  split; [exact CA|]. split; [exact CB|]. split; [vm_compute; reflexivity|]. split; [vm_compute; reflexivity|].
  split; reflexivity.
Qed.

Print Assumptions C83_one_life.
Print Assumptions C83_settlement.
Print Assumptions C83_only_the_time_matters.
