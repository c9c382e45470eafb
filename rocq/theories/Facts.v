(** Consequences of the invariants along single steps and whole runs. *)
From Verif Require Export MerkleInv.

(** ** Runs *)
Lemma run_cons E C w a evs w1 tr w2 : step E C w a evs w1 -> run E C w1 tr w2 -> run E C w ((a, evs) :: tr) w2.
Proof.
  intros Hs Hr. induction Hr as [|tr w' a' evs' w'' Hr IH Hs'].
  - apply (run_snoc E C w [] w a evs w1); [constructor|done].
  - change ((a, evs) :: tr ++ [(a', evs')]) with (((a, evs) :: tr) ++ [(a', evs')]). by eapply run_snoc.
Qed.
Lemma run_app E C w tr w1 tr' w2 : run E C w tr w1 -> run E C w1 tr' w2 -> run E C w (tr ++ tr') w2.
Proof.
  intros H1 H2. induction H2 as [|tr' w' a evs w'' Hr IH Hs]; [by rewrite app_nil_r|].
  rewrite app_assoc. by eapply run_snoc.
Qed.
Lemma step_any E C w a evs w' : step E C w a evs w' -> step E any_clock w a evs w'.
Proof. intros []; by constructor. Qed.
Lemma run_any E C w tr w' : run E C w tr w' -> run E any_clock w tr w'.
Proof. induction 1; [constructor|]. eapply run_snoc; [done|]. by eapply step_any. Qed.
Lemma history_snoc E C tr w a evs w' : history E C tr w -> step E C w a evs w' -> history E C (tr ++ [(a, evs)]) w'.
Proof. intros (w0 & Hg & Hr) Hs. exists w0. split; [done|]. by eapply run_snoc. Qed.
Lemma history_run E C tr w tr' w' : history E C tr w -> run E C w tr' w' -> history E C (tr ++ tr') w'.
Proof. intros (w0 & Hg & Hr) Hs. exists w0. split; [done|]. by eapply run_app. Qed.
Lemma history_any E C tr w : history E C tr w -> history E any_clock tr w.
Proof. intros (w00 & Hg & Hr). exists w00. split; [done|]. by eapply run_any. Qed.
Lemma reachable_later E w w' : reachable E w -> later E w w' -> reachable E w'.
Proof. intros [tr Hh] [tr' Hr]. exists (tr ++ tr'). by eapply history_run. Qed.
Lemma fwd_reachable E w : reachable_fwd E w -> reachable E w.
Proof. intros [_ [tr H]]. exists tr. by eapply history_any. Qed.
Lemma later_fwd_later E w w' : later_fwd E w w' -> later E w w'.
Proof. intros (tr & Hr & _). exists tr. by eapply run_any. Qed.
Lemma later_refl E w : later E w w. Proof. exists []. constructor. Qed.
Lemma later_trans E w1 w2 w3 : later E w1 w2 -> later E w2 w3 -> later E w1 w3.
Proof. intros [t1 H1] [t2 H2]. exists (t1 ++ t2). by eapply run_app. Qed.
Lemma step_later E C w a evs w' : step E C w a evs w' -> later E w w'.
Proof. intros H. exists [(a, evs)]. eapply run_cons; [by eapply step_any|constructor]. Qed.
Lemma events_app t1 t2 : events (t1 ++ t2) = events t1 ++ events t2.
Proof. unfold events. by rewrite flat_map_app. Qed.
Lemma events_one a evs : events [(a, evs)] = evs.
Proof. unfold events. simpl. by rewrite app_nil_r. Qed.

(** ** The clock *)
Lemma now_clock w : 0 <= wclock w <= U64_MAX -> get_current_time w = wclock w.
Proof. intros H. unfold get_current_time, as_u64. apply Z.mod_small. unfold U64_MAX in H. lia. Qed.
Lemma now_same w w' : wclock w' = wclock w -> get_current_time w' = get_current_time w.
Proof. unfold get_current_time. by intros ->. Qed.
Lemma lockup_clock E sg ix w w' evs : env_ok E -> signers_ok E sg -> lockup_exec E sg ix w = Ok (w', evs) -> wclock w' = wclock w.
Proof. intros HE Hsg Hx. destruct (lockup_frame _ _ _ _ _ _ HE Hsg Hx) as (S & HF & _). apply (fr_clock _ _ _ _ _ HF). Qed.
Lemma merkle_clock E sg ix w w' evs : env_ok E -> signers_ok E sg -> merkle_exec E sg ix w = Ok (w', evs) -> wclock w' = wclock w.
Proof. intros HE Hsg Hx. destruct (merkle_frame _ _ _ _ _ _ HE Hsg Hx) as (S & HF & _). apply (fr_clock _ _ _ _ _ HF). Qed.
Lemma step_clock_fwd E w a evs w' : env_ok E -> step E forward_clock w a evs w' ->
  wclock w' = wclock w \/ (0 <= wclock w <= wclock w' /\ wclock w' <= U64_MAX).
Proof.
  intros HE Hs. destruct Hs as [sg ix evs w' Hsg Hx|sg ix evs w' Hsg Hx|w' Ho Hc].
  - left. exact (lockup_clock _ _ _ _ _ _ HE Hsg Hx).
  - left. exact (merkle_clock _ _ _ _ _ _ HE Hsg Hx).
  - right. exact Hc.
Qed.
Lemma run_clock_fwd E w tr w' : env_ok E -> run E forward_clock w tr w' -> 0 <= wclock w <= U64_MAX ->
  wclock w <= wclock w' <= U64_MAX.
Proof.
  intros HE Hr Hw. induction Hr as [|tr w1 a evs w2 Hr IH Hs]; [lia|].
  destruct (step_clock_fwd _ _ _ _ _ HE Hs); lia.
Qed.
Lemma later_fwd_clock E w w' : env_ok E -> later_fwd E w w' -> 0 <= wclock w <= wclock w' /\ wclock w' <= U64_MAX.
Proof. intros HE (tr & Hr & Hw). pose proof (run_clock_fwd _ _ _ _ HE Hr Hw). lia. Qed.
Lemma reachable_fwd_later E w w' : env_ok E -> reachable_fwd E w -> later_fwd E w w' -> reachable_fwd E w'.
Proof.
  intros HE [Hw [tr Hh]] Hl. pose proof (later_fwd_clock _ _ _ HE Hl). destruct Hl as (tr' & Hr & _).
  split; [lia|]. exists (tr ++ tr'). by eapply history_run.
Qed.

(** ** Streams along steps *)
Lemma merkle_paid_zero E sg ix w w' evs k : merkle_exec E sg ix w = Ok (w', evs) -> paid_out k evs = 0.
Proof.
  intros Hx. apply merkle_exec_effect in Hx as [_ Heff].
  destruct Heff as [ | a g m b c w' evs Hcr Hm Hp Ha Hc Hv Hne Hva Hcc Hsz Hst Hev | ? ? ? ? ? ? ? ? ? ? ? ? F | ? ? ? ? ? ? ? ? F | ]; try done.
  - by subst evs.
  - by rewrite (lf_evs _ _ _ _ _ _ _ _ _ _ _ _ _ _ _ F).
  - by rewrite (bf_evs _ _ _ _ _ _ _ _ _ _ _ F).
Qed.

Lemma step_stream E C w a evs w' k s : env_ok E -> token_sane E w -> step E C w a evs w' ->
  wdat w !! k = Some (DStream s) ->
  exists s', wdat w' !! k = Some (DStream s') /\
   ((exists sg ix, a = ALockup sg ix /\ signers_ok E sg /\ lockup_exec E sg ix w = Ok (w', evs) /\
      wclock w' = wclock w /\ stream_change E sg w w' evs k s ix s') \/
    (is_lockup a = false /\ s' = s /\ paid_out k evs = 0)).
Proof.
  intros HE Hts Hs Hk. pose proof (step_keeps _ _ _ _ _ _ HE Hts Hs) as [HL _ _ _].
  destruct Hs as [sg ix evs w' Hsg Hx|sg ix evs w' Hsg Hx|w' Ho Hc].
  - destruct (lockup_exec_effect _ _ _ _ _ _ Hx) as [_ Heff].
    destruct (lockup_stream _ _ _ _ _ _ _ _ Heff Hk) as (s' & Hk' & Hch).
    exists s'. split; [done|]. left. exists sg, ix. split_and!; try done.
    exact (lockup_clock _ _ _ _ _ _ HE Hsg Hx).
  - exists s. split; [by apply (untouched_streams E w w'); [apply HL|]|].
    right. split_and!; try done. exact (merkle_paid_zero _ _ _ _ _ _ _ Hx).
  - exists s. split; [by apply (untouched_streams E w w'); [apply HL|]|]. by right.
Qed.

(** Induction over what happens to one stream in a run. *)
Lemma run_stream (P : world -> stream_data -> Prop) E C w0 s0 tr w k : env_ok E -> inv E w0 -> run E C w0 tr w ->
  wdat w0 !! k = Some (DStream s0) -> P w0 s0 ->
  (forall w a evs w' s s', inv E w -> step E C w a evs w' -> wdat w !! k = Some (DStream s) -> wdat w' !! k = Some (DStream s') ->
    stream_ok s -> P w s ->
    ((exists sg ix, a = ALockup sg ix /\ signers_ok E sg /\ lockup_exec E sg ix w = Ok (w', evs) /\
        wclock w' = wclock w /\ stream_change E sg w w' evs k s ix s') \/
     (is_lockup a = false /\ s' = s /\ paid_out k evs = 0)) -> P w' s') ->
  exists s, wdat w !! k = Some (DStream s) /\ P w s.
Proof.
  intros HE Hi Hr Hk HP Hstep. induction Hr as [|tr w a evs w' Hr IH Hs]; [by exists s0|].
  destruct IH as (s & Hs1 & HPs). pose proof (run_inv _ _ _ _ _ HE Hi Hr) as Hiw.
  destruct (step_stream _ _ _ _ _ _ _ _ HE (inv_sane _ _ Hiw) Hs Hs1) as (s' & Hs' & Hch).
  exists s'. split; [done|]. eapply Hstep; try done.
  apply (si_ok _ _ _ _ (li_stream _ _ (inv_lockup _ _ Hiw) _ _ Hs1)).
Qed.

(** A stream cannot disappear, so a later stream at the same address is the same one. *)
Lemma inv_stream_ok E w k s : inv E w -> wdat w !! k = Some (DStream s) -> stream_ok s.
Proof. intros Hi Hk. apply (si_ok _ _ _ _ (li_stream _ _ (inv_lockup _ _ Hi) _ _ Hk)). Qed.
Lemma reachable_stream_ok E w k s : env_ok E -> reachable E w -> wdat w !! k = Some (DStream s) -> stream_ok s.
Proof. intros HE Hr. apply (inv_stream_ok E). by apply (reachable_inv E). Qed.

(** No instruction changes what has been streamed at that instant. *)
Lemma stream_change_entitled E sg w w' evs k s ix s' : stream_ok s -> stream_change E sg w w' evs k s ix s' ->
  entitled s' (get_current_time w) = entitled s (get_current_time w).
Proof.
  intros Hok Hch. pose proof (now_range w) as Hnow.
  destruct (stream_change_ok _ _ _ _ _ _ _ _ _ Hok Hch) as (Hok' & Hsum & _).
  destruct Hch as [ | a st Hk _ _ _ _ _ _ | a m vt dt st Hk F _ | ix a am tr m nt s' vt dt fee wd Hix Ham Hk F _].
  - done.
  - unfold entitled, stream_schedule, stream_renounce. simpl. done.
  - assert (st = entitled s (get_current_time w)) as Hst.
    { pose proof (cf_streamed _ _ _ _ _ _ _ _ _ _ _ F) as Hst. rewrite (streamed_entitled s) in Hst by done. by injection Hst. }
    rewrite <- Hst. unfold entitled, stream_cancel. simpl.
    rewrite (cf_not_depleted _ _ _ _ _ _ _ _ _ _ _ F).
    destruct (Z.eqb_spec (st - withdrawn (s_amounts s)) 0); lia.
  - pose proof (wf_wd _ _ _ _ _ _ _ _ _ _ _ _ _ _ _ _ F) as Hwd.
    apply (withdrawable_entitled s) in Hwd as [Hwd Hle]; [|done|done].
    pose proof (wf_le _ _ _ _ _ _ _ _ _ _ _ _ _ _ _ _ F) as Hamle.
    pose proof (wf_not_depleted _ _ _ _ _ _ _ _ _ _ _ _ _ _ _ _ F) as Hnd.
    pose proof (wf_new _ _ _ _ _ _ _ _ _ _ _ _ _ _ _ _ F) as Hnew.
    apply stream_withdraw_ok in Hnew as (_ & _ & Hs'). simpl in Hs'. subst s'.
    pose proof (entitled_bounds s (get_current_time w) Hok).
    unfold entitled at 1. simpl. rewrite Hnd.
    destruct (Z.leb_spec (deposited (s_amounts s) - refunded (s_amounts s)) (withdrawn (s_amounts s) + am)).
    + lia.
    + unfold entitled. rewrite Hnd. destruct (s_canceled s); done.
Qed.

(** With a clock that never goes back, what was withdrawn had been streamed. *)
Definition fwd_ok (w : world) : Prop :=
  forall k s, wdat w !! k = Some (DStream s) -> withdrawn (s_amounts s) <= entitled s (get_current_time w).

Lemma stream_change_fwd E sg w w' evs k s ix s' : stream_ok s -> stream_change E sg w w' evs k s ix s' ->
  withdrawn (s_amounts s) <= entitled s (get_current_time w) ->
  withdrawn (s_amounts s') <= entitled s (get_current_time w).
Proof.
  intros Hok Hch Hle. pose proof (now_range w) as Hnow.
  destruct Hch as [ | a st Hk _ _ _ _ _ _ | a m vt dt st Hk F _ | ix a am tr m nt s' vt dt fee wd Hix Ham Hk F _]; try done.
  pose proof (wf_wd _ _ _ _ _ _ _ _ _ _ _ _ _ _ _ _ F) as Hwd.
  apply (withdrawable_entitled s) in Hwd as [Hwd _]; [|done|done].
  pose proof (wf_le _ _ _ _ _ _ _ _ _ _ _ _ _ _ _ _ F) as Hamle.
  pose proof (wf_new _ _ _ _ _ _ _ _ _ _ _ _ _ _ _ _ F) as Hnew.
  apply stream_withdraw_ok in Hnew as (_ & _ & Hs'). simpl in Hs'. subst s'. simpl. lia.
Qed.

Lemma step_fwd_ok E w a evs w' : env_ok E -> inv E w -> step E forward_clock w a evs w' ->
  0 <= wclock w <= U64_MAX -> fwd_ok w -> fwd_ok w'.
Proof.
  intros HE Hi Hs Hw Hf k s' Hk'.
  pose proof (step_inv _ _ _ _ _ _ HE Hi Hs) as Hi'.
  pose proof (inv_stream_ok _ _ _ _ Hi' Hk') as Hok'.
  assert ((exists s, wdat w !! k = Some (DStream s)) \/ withdrawn (s_amounts s') = 0) as [[s Hk]|Hz].
  { pose proof (step_keeps _ _ _ _ _ _ HE (inv_sane _ _ Hi) Hs) as [HL _ _ _].
    destruct Hs as [sg ix evs w' Hsg Hx|sg ix evs w' Hsg Hx|w' Ho Hc].
    - destruct (lockup_exec_effect _ _ _ _ _ _ Hx) as [_ Heff].
      destruct (lockup_new_stream _ _ _ _ _ _ _ _ Heff Hk') as [?|(a & p & ct & nc & cm & dm & sb & name & c0 & c1 & _ & _ & F & _)].
      + by left.
      + right. rewrite (rf_s _ _ _ _ _ _ _ _ _ _ _ _ _ _ _ _ F). done.
    - left. exists s'. by apply (untouched_streams E w w'); [apply HL|].
    - left. exists s'. by apply (untouched_streams E w w'); [apply HL|]. }
  - destruct (step_stream _ _ _ _ _ _ _ _ HE (inv_sane _ _ Hi) Hs Hk) as (s2 & Hs2 & Hch).
    assert (s2 = s') as -> by congruence.
    pose proof (inv_stream_ok _ _ _ _ Hi Hk) as Hok. specialize (Hf k s Hk).
    destruct Hch as [(sg & ix & -> & Hsg & Hx & Hc & Hch)|(Ha & -> & _)].
    + rewrite (now_same w w') by done.
      rewrite (stream_change_entitled _ _ _ _ _ _ _ _ _ Hok Hch).
      exact (stream_change_fwd _ _ _ _ _ _ _ _ _ Hok Hch Hf).
    + destruct (step_clock_fwd _ _ _ _ _ HE Hs) as [Hc|Hc].
      * by rewrite (now_same w w') by done.
      * rewrite now_clock in Hf by done. rewrite now_clock by lia.
        pose proof (entitled_mono s (wclock w) (wclock w') Hok). lia.
  - rewrite Hz. apply entitled_bounds. done.
Qed.
Lemma run_fwd_ok E w0 tr w : env_ok E -> inv E w0 -> run E forward_clock w0 tr w -> 0 <= wclock w0 <= U64_MAX -> fwd_ok w0 -> fwd_ok w.
Proof.
  intros HE Hi Hr Hw Hf. induction Hr as [|tr w a evs w' Hr IH Hs]; [done|].
  pose proof (run_clock_fwd _ _ _ _ HE Hr Hw).
  eapply step_fwd_ok; [done|exact (run_inv _ _ _ _ _ HE Hi Hr)|exact Hs|lia|done].
Qed.
Lemma history_fwd_ok E tr w : env_ok E -> history E forward_clock tr w -> 0 <= wclock w <= U64_MAX -> fwd_ok w.
Proof.
  intros HE (w0 & Hg & Hr). pose proof (genesis_inv _ _ Hg) as Hi.
  induction Hr as [|tr w a evs w' Hr IH Hs]; intros Hw.
  - intros k s Hk. pose proof (g_data _ _ Hg _ _ Hk). done.
  - eapply step_fwd_ok; [done|exact (run_inv _ _ _ _ _ HE Hi Hr)|exact Hs| |].
    + destruct (step_clock_fwd _ _ _ _ _ HE Hs); lia.
    + apply IH. destruct (step_clock_fwd _ _ _ _ _ HE Hs); lia.
Qed.
Lemma reachable_fwd_ok E w : env_ok E -> reachable_fwd E w -> fwd_ok w.
Proof. intros HE [Hw [tr Hh]]. by eapply history_fwd_ok. Qed.

(** ** Views *)
Lemma stream_view_inv E k nft w s : stream_view E k nft w = Ok s ->
  wdat w !! k = Some (DStream s) /\ (exists m, wdat w !! nft = Some (DMint m)) /\
  create_program_address E PLockup (stream_seeds nft) (s_bump s) = Some k.
Proof.
  unfold stream_view, load_stream, load_mint, check_seeds_bump, ensure.
  destruct (wdat w !! k) as [[]|]; try done. simpl.
  destruct (wdat w !! nft) as [[]|]; try done. simpl.
  destruct (bool_decide _) eqn:Hb; [|done]. simpl. intros [= <-].
  apply bool_decide_eq_true in Hb. split_and!; [done| |done]. by eexists.
Qed.
Lemma streamed_view E k nft w s : stream_view E k nft w = Ok s -> stream_ok s ->
  streamed_amount_of E k nft w = Ok (entitled s (get_current_time w)).
Proof.
  intros Hv Hok. unfold streamed_amount_of. rewrite Hv. cbn [rbind].
  apply streamed_entitled; [done|apply now_range].
Qed.
Lemma withdrawable_view E k nft w s : stream_view E k nft w = Ok s -> stream_ok s ->
  withdrawn (s_amounts s) <= entitled s (get_current_time w) ->
  withdrawable_amount_of E k nft w = Ok (entitled s (get_current_time w) - withdrawn (s_amounts s)).
Proof.
  intros Hv Hok Hle. unfold withdrawable_amount_of. rewrite Hv. cbn [rbind]. unfold get_withdrawable_amount.
  rewrite (streamed_entitled s) by (done || apply now_range). cbn [rbind]. unfold u64_sub.
  destruct (Z.leb_spec (withdrawn (s_amounts s)) (entitled s (get_current_time w))); [done|lia].
Qed.
Lemma withdrawable_view_inv E k nft w s x : stream_view E k nft w = Ok s -> stream_ok s ->
  withdrawable_amount_of E k nft w = Ok x ->
  x = entitled s (get_current_time w) - withdrawn (s_amounts s) /\ 0 <= x.
Proof.
  intros Hv Hok. unfold withdrawable_amount_of. rewrite Hv. cbn [rbind]. intros Hx.
  apply (withdrawable_entitled s) in Hx; [|done|apply now_range]. lia.
Qed.
Lemma refundable_view E k nft w s : stream_view E k nft w = Ok s -> stream_ok s ->
  refundable_amount_of E k nft w =
    Ok (if s_cancelable s && negb (s_depleted s) then deposited (s_amounts s) - entitled s (get_current_time w) else 0).
Proof.
  intros Hv Hok. unfold refundable_amount_of. rewrite Hv. cbn [rbind]. unfold get_refundable_amount.
  destruct (s_cancelable s && negb (s_depleted s)); [|done].
  rewrite (streamed_entitled s) by (done || apply now_range). cbn [rbind]. unfold u64_sub.
  pose proof (entitled_bounds s (get_current_time w) Hok). pose proof (so_refunded _ Hok).
  destruct (Z.leb_spec (entitled s (get_current_time w)) (deposited (s_amounts s))); [done|lia].
Qed.
