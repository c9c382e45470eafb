(** C07, C08, C14 - C17, C21, C24 - C26: properties of streams over whole histories. *)
From Verif Require Export PropStream.

(** ** C07: a stream never pays out more than its deposit *)

Lemma no_stream_paid_zero E sg ix w w' evs k : lockup_effect E sg w ix w' evs -> (forall s, wdat w !! k <> Some (DStream s)) ->
  paid_out k evs = 0.
Proof.
  intros Heff Hk.
  destruct Heff as [a f p c tb nb ? F|? a p ct nc cm dm sb s1 nm c0 c1 ? ? Hixx Hargs F|a s1 st ? ? Hsi Hse' Hs1 ? ? ? ? -> ->|a m s1 vt dt st ? ? F
      |? a am tr m nt s1 s' vt dt fee wd ? ? Hixx Ham F|a tr n' ? Hc Htr' ? ? -> ? Hmv].
  - done.
  - by rewrite (rf_evs _ _ _ _ _ _ _ _ _ _ _ _ _ _ _ _ F).
  - done.
  - rewrite (cf_evs _ _ _ _ _ _ _ _ _ _ _ F). simpl. destruct (Z.eqb_spec (xa_stream a) k) as [Heq|_]; [|done].
    pose proof (cf_stream _ _ _ _ _ _ _ _ _ _ _ F) as Hs. rewrite Heq in Hs. by destruct (Hk s1).
  - rewrite (wf_evs _ _ _ _ _ _ _ _ _ _ _ _ _ _ _ _ F). simpl. destruct (Z.eqb_spec (wa_stream a) k) as [Heq|_]; [|done].
    pose proof (wf_stream _ _ _ _ _ _ _ _ _ _ _ _ _ _ _ _ F) as Hs. rewrite Heq in Hs. by destruct (Hk s1).
  - done.
Qed.

(** What has been paid for stream [k] according to its account. *)
Definition recorded (w : world) (k : key) : Z :=
  match wdat w !! k with Some (DStream s) => withdrawn (s_amounts s) + refunded (s_amounts s) | _ => 0 end.

Lemma stream_or_not (w : world) k : (exists s, wdat w !! k = Some (DStream s)) \/ (forall s, wdat w !! k <> Some (DStream s)).
Proof. destruct (wdat w !! k) as [[]|]; try (right; congruence). left. by eexists. Qed.
Lemma recorded_none w k : (forall s, wdat w !! k <> Some (DStream s)) -> recorded w k = 0.
Proof. intros H. unfold recorded. destruct (wdat w !! k) as [[]|]; try done. by destruct (H s). Qed.

Lemma step_recorded E C w a evs w' k : env_ok E -> inv E w -> step E C w a evs w' ->
  recorded w' k = recorded w k + paid_out k evs.
Proof.
  intros HE Hi Hst. destruct (stream_or_not w k) as [[s Hk]|Hno].
  - destruct (step_stream _ _ _ _ _ _ _ _ HE (inv_sane _ _ Hi) Hst Hk) as (s' & Hk' & Hch).
    unfold recorded. rewrite Hk, Hk'. pose proof (inv_stream_ok _ _ _ _ Hi Hk) as Hok.
    destruct Hch as [(sg & ix & _ & _ & _ & _ & Hch)|(_ & -> & ->)]; [|lia].
    destruct (stream_change_ok _ _ _ _ _ _ _ _ _ Hok Hch) as (_ & Hsum & _). lia.
  - rewrite (recorded_none w) by done.
    assert ((forall s', wdat w' !! k = Some (DStream s') -> withdrawn (s_amounts s') + refunded (s_amounts s') = 0) /\ paid_out k evs = 0) as [Hz ->].
    + pose proof (step_keeps _ _ _ _ _ _ HE (inv_sane _ _ Hi) Hst) as [HL _ _ _].
      destruct Hst as [sg ix evs w' Hsg Hx|sg ix evs w' Hsg Hx|w' Ho Hc].
      * destruct (lockup_exec_effect _ _ _ _ _ _ Hx) as [_ Heff]. split; [|by eapply no_stream_paid_zero].
        intros s' Hs'. destruct (lockup_new_stream _ _ _ _ _ _ _ _ Heff Hs') as [[s0 ?]|(a & p & ct & nc & cm & dm & sb & name & c0 & c1 & _ & _ & F & _)].
        -- by destruct (Hno s0).
        -- by rewrite (rf_s _ _ _ _ _ _ _ _ _ _ _ _ _ _ _ _ F).
      * split; [|exact (merkle_paid_zero _ _ _ _ _ _ _ Hx)]. intros s' Hs'. apply (untouched_streams E w w') in Hs'; [by destruct (Hno s')|by apply HL].
      * split; [|done]. intros s' Hs'. apply (untouched_streams E w w') in Hs'; [by destruct (Hno s')|by apply HL].
    + unfold recorded. destruct (wdat w' !! k) as [[]|]; try done. rewrite Hz by done. done.
Qed.

Theorem C07_never_more_than_deposit : forall E tr w k s,
  env_ok E -> history E any_clock tr w -> wdat w !! k = Some (DStream s) ->
  0 <= withdrawn (s_amounts s) /\ 0 <= refunded (s_amounts s) /\
  withdrawn (s_amounts s) + refunded (s_amounts s) <= deposited (s_amounts s) <= U64_MAX /\
  paid_out k (events tr) = withdrawn (s_amounts s) + refunded (s_amounts s).
Proof.
  intros E tr w k s HE Hh Hk.
  assert (stream_ok s) as [] by (eapply (reachable_stream_ok E w k); [done|by exists tr|done]).
  split; [done|]. split; [done|]. split; [lia|].
  assert (paid_out k (events tr) = recorded w k) as ->; [|unfold recorded; by rewrite Hk].
  destruct Hh as (w00 & Hg & Hr). pose proof (genesis_inv _ _ Hg) as Hi. clear Hk. induction Hr as [|tr w1 a evs w2 Hr IH Hs].
  - unfold events. simpl. rewrite recorded_none; [done|]. intros s1 Hs1. pose proof (g_data _ _ Hg _ _ Hs1). done.
  - rewrite events_app, events_one, paid_out_app, IH. by rewrite (step_recorded _ _ _ _ _ _ _ HE (run_inv _ _ _ _ _ HE Hi Hr) Hs).
Qed.
(** Over every single step by anybody, the tokens that leave a vault are at most those reported for its stream
    (exactly those, when a withdrawal goes elsewhere: C09, or a refund is paid: C12). *)
Theorem C07_vault_outflow : forall E C w a evs w' k s v t,
  env_ok E -> reachable E w -> step E C w a evs w' -> wdat w !! k = Some (DStream s) ->
  wdat w !! v = Some (DToken t) -> t_owner t = k -> ata_address E k (t_mint t) (t_prog t) = Ok v ->
  plain E (t_mint t) = true ->
  balance w v - paid_out k evs <= balance w' v /\ 0 <= paid_out k evs.
Proof.
  intros E C w a evs w' k s v t HE Hr Hst Hk Hv Ho Ha Hpl. pose proof (reachable_inv _ _ HE Hr) as Hi.
  pose proof (li_stream _ _ (inv_lockup _ _ Hi) _ _ Hk) as Hsi. pose proof (si_ok _ _ _ _ Hsi) as Hok.
  assert (pda_of E PLockup k = true) as Hp.
  { destruct (si_nft _ _ _ _ Hsi) as (nft & b & m & au & _ & Hka & _). by apply fpa_pda in Hka as [? _]. }
  destruct (step_stream _ _ _ _ _ _ _ _ HE (inv_sane _ _ Hi) Hst Hk) as (s' & Hk' & Hch).
  unfold balance at 1. rewrite Hv.
  destruct Hch as [(sg & ix & -> & Hsg & Hx & _ & Hch)|(Hna & -> & ->)].
  - destruct (stream_change_vault _ _ _ _ _ _ _ _ _ _ _ HE Hsg Hx Hk Hok Hp Hch Hv Ho) as (t' & Hv' & _ & Hge).
    destruct (stream_change_ok _ _ _ _ _ _ _ _ _ Hok Hch) as (_ & _ & ?).
    unfold balance. rewrite Hv'. lia.
  - pose proof (step_keeps _ _ _ _ _ _ HE (inv_sane _ _ Hi) Hst) as [HL _ _ _].
    destruct (u_vault _ _ _ _ (HL Hna) _ _ Hv) as (t' & Hv' & _ & _ & _ & Hle); [by rewrite Ho|by rewrite Ho|].
    specialize (Hle Hpl). unfold balance. rewrite Hv'. lia.
Qed.
Example C07_example : exists s1 s4,
  history E0 any_clock tr3 w3 /\ wdat w3 !! kStream kSender 1 = Some (DStream s1) /\
  withdrawn (s_amounts s1) = 150 /\ refunded (s_amounts s1) = 425 /\ paid_out (kStream kSender 1) (events tr3) = 575 /\
  history E0 any_clock tr4 w4 /\ wdat w4 !! kStream kSender 1 = Some (DStream s4) /\
  withdrawn (s_amounts s4) = 575 /\ paid_out (kStream kSender 1) (events tr4) = 1000.
Proof.
  eexists _, _. split; [eapply history_any, w3_hist|]. split; [vm_compute; reflexivity|].
  split; [reflexivity|]. split; [reflexivity|]. split; [vm_compute; reflexivity|].
  split; [eapply history_any, w4_hist|]. split; [vm_compute; reflexivity|]. split; [reflexivity|]. vm_compute; reflexivity.
Qed.

(** ** C08: every stream is backed by its own vault *)

(** [v] is the vault of the stream at [k]: the associated account of [k] for the stream's token under one of the
    two token programs, in existence and owned by [k]. *)
Definition vault_of (E : env) (w : world) (k : key) (s : stream_data) (v : key) : Prop :=
  exists t, wdat w !! v = Some (DToken t) /\ t_owner t = k /\ t_mint t = s_mint s /\
    ata_address E k (s_mint s) (t_prog t) = Ok v.

Theorem C08_solvent : forall E w k s,
  env_ok E -> reachable E w -> wdat w !! k = Some (DStream s) ->
  exists v, vault_of E w k s v /\
    (plain E (s_mint s) = true ->
     deposited (s_amounts s) - withdrawn (s_amounts s) - refunded (s_amounts s) <= balance w v).
Proof.
  intros E w k s HE Hr Hk. pose proof (reachable_inv _ _ HE Hr) as Hi.
  destruct (si_vault _ _ _ _ (li_stream _ _ (inv_lockup _ _ Hi) _ _ Hk)) as (tp & v & vt & Ha & Hv & Ho & Hm & Hp & Hge).
  exists v. split.
  - exists vt. rewrite Hp. split_and!; done.
  - intros Hpl. unfold balance. rewrite Hv. by apply Hge.
Qed.
Theorem C08_vaults_distinct : forall E w k1 s1 k2 s2 v,
  wdat w !! k1 = Some (DStream s1) -> wdat w !! k2 = Some (DStream s2) ->
  vault_of E w k1 s1 v -> vault_of E w k2 s2 v -> k1 = k2.
Proof. intros E w k1 s1 k2 s2 v _ _ (t1 & H1 & <- & _) (t2 & H2 & <- & _). rewrite H1 in H2. by injection H2 as ->. Qed.
(** The vault of a stream stays its vault, and from one step to the next the backing is kept. *)
Theorem C08_vault_stays : forall E w w' k s v,
  env_ok E -> reachable E w -> wdat w !! k = Some (DStream s) -> vault_of E w k s v -> plain E (s_mint s) = true ->
  deposited (s_amounts s) - withdrawn (s_amounts s) - refunded (s_amounts s) <= balance w v -> later E w w' ->
  exists s', wdat w' !! k = Some (DStream s') /\ vault_of E w' k s' v /\
    deposited (s_amounts s') - withdrawn (s_amounts s') - refunded (s_amounts s') <= balance w' v.
Proof.
  intros E w w' k s v HE Hr Hk Hv Hpl Hge [tr Hrun]. pose proof (reachable_inv _ _ HE Hr) as Hi.
  pose proof (run_stream (fun w1 s1 => (plain E (s_mint s1) = true /\ vault_of E w1 k s1 v) /\
     deposited (s_amounts s1) - withdrawn (s_amounts s1) - refunded (s_amounts s1) <= balance w1 v)
    E any_clock w s tr w' k HE Hi Hrun Hk (conj (conj Hpl Hv) Hge)) as (s' & ? & [_ ?] & ?); [|by exists s'].
  clear s w tr Hr Hk Hv Hpl Hge Hrun Hi w'. intros w a evs w' s s' Hi Hst Hk Hk' Hok [[Hpl (t & Hv & Ho & Hm & Ha)] Hge] Hch.
  pose proof (li_stream _ _ (inv_lockup _ _ Hi) _ _ Hk) as Hsi.
  assert (pda_of E PLockup k = true) as Hp.
  { destruct (si_nft _ _ _ _ Hsi) as (nft & b & m & au & _ & Hka & _). by apply fpa_pda in Hka as [? _]. }
  unfold balance in Hge. rewrite Hv in Hge.
  destruct Hch as [(sg & ix & -> & Hsg & Hx & _ & Hch)|(Hna & -> & _)].
  - destruct (stream_change_vault _ _ _ _ _ _ _ _ _ _ _ HE Hsg Hx Hk Hok Hp Hch Hv Ho) as (t' & Hv' & (S1 & S2 & S3 & S4) & Hge').
    destruct (stream_change_ok _ _ _ _ _ _ _ _ _ Hok Hch) as (_ & Hsum & _).
    pose proof (stream_change_terms _ _ _ _ _ _ _ _ _ Hch) as (_ & T1 & _ & _ & _ & T2 & _).
    split; [|unfold balance; rewrite Hv'; lia].
    split; [congruence|]. exists t'. split; [done|]. split; [congruence|]. split; [congruence|].
    replace (s_mint s') with (s_mint s) by done. replace (t_prog t') with (t_prog t) by congruence. exact Ha.
  - pose proof (step_keeps _ _ _ _ _ _ HE (inv_sane _ _ Hi) Hst) as [HL _ _ _].
    destruct (u_vault _ _ _ _ (HL Hna) _ _ Hv) as (t' & Hv' & Hpp & Hmm & Hoo & Hle); [by rewrite Ho|by rewrite Ho, Hm|].
    specialize (Hle ltac:(congruence)). split; [|unfold balance; rewrite Hv'; lia].
    split; [done|]. exists t'. split; [done|]. split; [congruence|]. split; [congruence|]. rewrite Hpp. exact Ha.
Qed.
Example C08_example : exists s, reachable E0 w2 /\ wdat w2 !! kStream kSender 1 = Some (DStream s) /\
  vault_of E0 w2 (kStream kSender 1) s (kVault kSender 1) /\ plain E0 (s_mint s) = true /\ balance w2 (kVault kSender 1) = 850 /\
  deposited (s_amounts s) - withdrawn (s_amounts s) - refunded (s_amounts s) = 850 /\ later E0 w2 w4.
Proof.
  eexists. split; [eapply history_reach, w2_hist|]. split; [vm_compute; reflexivity|].
  split; [|split; [vm_compute; reflexivity|split; [vm_compute; reflexivity|split; [vm_compute; reflexivity|]]]].
  - eexists. split; [vm_compute; reflexivity|]. split; [vm_compute; reflexivity|]. split; vm_compute; reflexivity.
  - eapply later_trans; [exact (stage_later _ _ _ _ _ w2_hist stage3)|].
    exact (stage_later _ _ _ _ _ w3_hist stage4).
Qed.

(** ** C14: losing cancelability is irreversible *)

Lemma not_cancelable_stays E w w2 k s : env_ok E -> reachable E w -> wdat w !! k = Some (DStream s) -> s_cancelable s = false -> later E w w2 ->
  exists s2, wdat w2 !! k = Some (DStream s2) /\ s_cancelable s2 = false /\
    refunded (s_amounts s2) = refunded (s_amounts s) /\ s_canceled s2 = s_canceled s /\ same_terms s s2.
Proof.
  intros HE Hr Hk Hc [tr Hrun]. pose proof (reachable_inv _ _ HE Hr) as Hi.
  destruct (run_stream (fun _ s2 => s_cancelable s2 = false /\ refunded (s_amounts s2) = refunded (s_amounts s) /\ s_canceled s2 = s_canceled s /\
     same_terms s s2) E any_clock w s tr w2 k HE Hi Hrun Hk) as (s2 & ? & ? & ? & ?).
  - done.
  - intros w1 a evs w1' s1 s1' _ _ _ _ _ (Hc1 & Hr1 & Hk1 & Ht1) [(sg & ix & _ & _ & _ & _ & Hch)|(_ & -> & _)]; [|done].
    pose proof (same_terms_trans _ _ _ Ht1 (stream_change_terms _ _ _ _ _ _ _ _ _ Hch)) as Ht.
    destruct Hch as [ | a' st Hka _ _ _ Hcb _ _ | a' m vt dt st Hka F _ | ix a' am tr' m nt s' vt dt fee wd Hix Ham Hka F _].
    + done.
    + congruence.
    + pose proof (cf_cancelable _ _ _ _ _ _ _ _ _ _ _ F). congruence.
    + pose proof (wf_new _ _ _ _ _ _ _ _ _ _ _ _ _ _ _ _ F) as Hn1. apply stream_withdraw_ok in Hn1 as (_ & _ & ->). simpl.
      split_and!; try done. by destruct (_ <=? _).
  - by exists s2.
Qed.
Theorem C14_irreversible : forall E w w2 k s,
  env_ok E -> reachable E w -> wdat w !! k = Some (DStream s) -> s_cancelable s = false -> later E w w2 ->
  (exists s2, wdat w2 !! k = Some (DStream s2) /\ s_cancelable s2 = false /\
     refunded (s_amounts s2) = refunded (s_amounts s)) /\
  (forall sg a, xa_stream a = k -> is_ok (lockup_exec E sg (LCancel a) w2) = false) /\
  (forall sg a, ra_stream a = k -> is_ok (lockup_exec E sg (LRenounce a) w2) = false).
Proof.
  intros E w w2 k s HE Hr Hk Hc Hl. destruct (not_cancelable_stays _ _ _ _ _ HE Hr Hk Hc Hl) as (s2 & Hk2 & Hc2 & Hr2 & _).
  split; [by exists s2|]. split; intros sg a Ha.
  - destruct (lockup_exec E sg (LCancel a) w2) as [[w3 evs]|] eqn:Hx; [|done]. exfalso.
    apply exec_cancel_inv in Hx as (m & s3 & vt & dt & st & F). destruct F. congruence.
  - destruct (lockup_exec E sg (LRenounce a) w2) as [[w3 evs]|] eqn:Hx; [|done]. exfalso.
    apply exec_renounce_inv in Hx as (s3 & st & _ & _ & Hk3 & _ & _ & _ & Hc3 & _). congruence.
Qed.
(** The ways to get there: created so (C06), renounced, canceled, depleted. *)
Theorem C14_ways : forall E w,
  env_ok E -> reachable E w ->
  (forall sg a w' evs, signers_ok E sg -> lockup_exec E sg (LRenounce a) w = Ok (w', evs) ->
     exists s, wdat w' !! ra_stream a = Some (DStream s) /\ s_cancelable s = false) /\
  (forall sg a w' evs, signers_ok E sg -> lockup_exec E sg (LCancel a) w = Ok (w', evs) ->
     exists s, wdat w' !! xa_stream a = Some (DStream s) /\ s_cancelable s = false) /\
  (forall k s, wdat w !! k = Some (DStream s) -> withdrawn (s_amounts s) + refunded (s_amounts s) = deposited (s_amounts s) ->
     s_cancelable s = false).
Proof.
  intros E w HE Hr. split; [|split].
  - intros sg a w' evs _ Hx. apply exec_renounce_inv in Hx as (s & st & _ & _ & Hk & _ & _ & _ & _ & _ & -> & _).
    exists (stream_renounce s). split; [|done]. by rewrite wdat_set_dat, lookup_insert.
  - intros sg a w' evs Hsg Hx. destruct (C12_cancel _ _ _ _ _ _ HE Hr Hsg Hx) as (s & s' & st & Ho).
    exists s'. split; [|apply (xo_flags _ _ _ _ _ _ _ _ _ Ho)]. apply (stream_view_inv _ _ _ _ _ (xo_after _ _ _ _ _ _ _ _ _ Ho)).
  - intros k s Hk Hd. pose proof (reachable_stream_ok _ _ _ _ HE Hr Hk) as Hok. apply (so_flags _ Hok). right. by apply (so_depleted _ Hok).
Qed.
Example C14_example : exists s, reachable E0 w3 /\ wdat w3 !! kStream kSender 2 = Some (DStream s) /\ s_cancelable s = false /\
  later E0 w3 w4 /\ refunded (s_amounts s) = 0 /\ deposited (s_amounts s) = 3000.
Proof.
  eexists. split; [eapply history_reach, w3_hist|]. split; [vm_compute; reflexivity|]. split; [reflexivity|].
  split; [exact (stage_later _ _ _ _ _ w3_hist stage4)|]. split; reflexivity.
Qed.

(** ** C15: a renounced stream follows its schedule to the end *)
Theorem C15_follows_schedule : forall E w w2 k nft s,
  env_ok E -> reachable E w -> stream_at E w k nft s -> s_cancelable s = false -> s_canceled s = false -> later E w w2 ->
  exists s2, stream_at E w2 k nft s2 /\ same_terms s s2 /\ s_canceled s2 = false /\
    streamed_amount_of E k nft w2 =
      Ok (if withdrawn (s_amounts s2) =? deposited (s_amounts s) then deposited (s_amounts s)
          else schedule (deposited (s_amounts s)) (t_start (s_times s)) (t_cliff (s_times s)) (t_end (s_times s))
                 (start_unlock (s_amounts s)) (cliff_unlock (s_amounts s)) (get_current_time w2)).
Proof.
  intros E w w2 k nft s HE Hr [Hk Hn] Hc Hcc Hl.
  destruct (not_cancelable_stays _ _ _ _ _ HE Hr Hk Hc Hl) as (s2 & Hk2 & Hc2 & Hr2 & Hcc2 & Ht).
  pose proof (reachable_inv _ _ HE (reachable_later _ _ _ Hr Hl)) as Hi2.
  assert (stream_at E w2 k nft s2) as Hat2.
  { split; [done|]. destruct Ht as (T1 & _ & T2 & _). unfold nft_mint_of. rewrite T1, T2. exact Hn. }
  exists s2. split; [done|]. split; [done|]. split; [congruence|].
  pose proof (inv_stream_ok _ _ _ _ Hi2 Hk2) as Hok2.
  rewrite (streamed_view _ _ _ _ _ (view_at _ _ _ _ _ Hi2 Hat2) Hok2). f_equal. unfold entitled. rewrite Hcc2, Hcc.
  assert (refunded (s_amounts s2) = 0).
  { pose proof (so_refunded _ Hok2). destruct (Z.eq_dec (refunded (s_amounts s2)) 0); [done|].
    assert (s_canceled s2 = true) by (apply (so_canceled _ Hok2); lia). congruence. }
  destruct Ht as (_ & _ & _ & _ & T5 & T6 & T7 & T8). pose proof (so_depleted _ Hok2) as Hd.
  destruct (s_depleted s2).
  - assert (withdrawn (s_amounts s2) + refunded (s_amounts s2) = deposited (s_amounts s2)) by (by apply Hd).
    rewrite (proj2 (Z.eqb_eq _ _)) by lia. lia.
  - destruct (Z.eqb_spec (withdrawn (s_amounts s2)) (deposited (s_amounts s))) as [He|He].
    + assert (false = true) by (apply Hd; lia). done.
    + unfold stream_schedule. by rewrite T5, T6, T7, T8.
Qed.
(** In particular after a successful renounce. *)
Theorem C15_after_renounce : forall E sg a w w' evs s nft w2,
  env_ok E -> reachable E w -> signers_ok E sg -> lockup_exec E sg (LRenounce a) w = Ok (w', evs) ->
  wdat w !! ra_stream a = Some (DStream s) -> nft_mint_of E s nft -> later E w' w2 ->
  exists s2, stream_at E w2 (ra_stream a) nft s2 /\ same_terms s s2 /\
    streamed_amount_of E (ra_stream a) nft w2 =
      Ok (if withdrawn (s_amounts s2) =? deposited (s_amounts s) then deposited (s_amounts s)
          else schedule (deposited (s_amounts s)) (t_start (s_times s)) (t_cliff (s_times s)) (t_end (s_times s))
                 (start_unlock (s_amounts s)) (cliff_unlock (s_amounts s)) (get_current_time w2)).
Proof.
  intros E sg a w w' evs s nft w2 HE Hr Hsg Hx Hk Hn Hl. pose proof Hx as Hx0.
  apply exec_renounce_inv in Hx as (s0 & st & _ & _ & Hk0 & _ & _ & _ & Hcb & _ & Hw' & _).
  rewrite Hk in Hk0. injection Hk0 as <-.
  assert (reachable E w') as Hr' by (eapply reachable_later; [exact Hr|]; eapply (step_later E any_clock); constructor; [exact Hsg|exact Hx0]).
  assert (stream_at E w' (ra_stream a) nft (stream_renounce s)) as Hat.
  { split; [|exact Hn]. by rewrite Hw', wdat_set_dat, lookup_insert. }
  assert (s_canceled s = false) as Hcc.
  { pose proof (reachable_stream_ok _ _ _ _ HE Hr Hk) as Hok. destruct (s_canceled s) eqn:Hc; [|done].
    rewrite (so_flags _ Hok) in Hcb by (by left). done. }
  destruct (C15_follows_schedule E w' w2 _ _ _ HE Hr' Hat eq_refl Hcc Hl) as (s2 & H1 & H2 & _ & H3).
  exists s2. split; [exact H1|]. split; [exact H2|]. exact H3.
Qed.
Example C15_example : exists s, reachable E0 (T 1600 w2) /\ signers_ok E0 [kSender] /\
  is_ok (lockup_exec E0 [kSender] (LRenounce (renounce_of 2)) (T 1600 w2)) = true /\
  wdat (T 1600 w2) !! kStream kSender 2 = Some (DStream s) /\ nft_mint_of E0 s (kNft kSender 2) /\
  streamed_amount_of E0 (kStream kSender 2) (kNft kSender 2) w3 = Ok 1800 /\
  streamed_amount_of E0 (kStream kSender 2) (kNft kSender 2) w4 = Ok 2100 /\
  streamed_amount_of E0 (kStream kSender 2) (kNft kSender 2) w7 = Ok 3000.
Proof.
  eexists. split; [eapply reachable_later; [eapply history_reach, w2_hist|]; apply (script_later [CT 1600] tr2); [apply w2_hist|vm_compute; reflexivity]|].
  split; [apply signers_from_check; vm_compute; reflexivity|]. split; [vm_compute; reflexivity|].
  split; [vm_compute; reflexivity|]. split; [exists 255; vm_compute; reflexivity|]. split; [vm_compute; reflexivity|].
  split; vm_compute; reflexivity.
Qed.

(** ** C16, C17: status *)

Ltac ifs := repeat match goal with |- context [if ?b then _ else _] => destruct b end.

Definition status_at (s : stream_data) (now : Z) : status :=
  if s_depleted s then Depleted else if s_canceled s then Canceled
  else if now <? t_start (s_times s) then Pending
  else if entitled s now <? deposited (s_amounts s) then Streaming else Settled.
Lemma status_view E k nft w s : stream_view E k nft w = Ok s -> stream_ok s ->
  status_of_view E k nft w = Ok (status_at s (get_current_time w)).
Proof.
  intros Hv Hok. unfold status_of_view. rewrite Hv. cbn [rbind]. unfold status_of, status_at.
  rewrite (streamed_entitled s) by (done || apply now_range). cbn [rbind].
  ifs; reflexivity.
Qed.

(** Each status says exactly this about the amounts. *)
Record status_meaning (s : stream_data) (now streamed : Z) (st : status) : Prop := {
  sm_depleted : st = Depleted <-> withdrawn (s_amounts s) + refunded (s_amounts s) = deposited (s_amounts s);
  sm_canceled : st = Canceled <-> 0 < refunded (s_amounts s) /\ withdrawn (s_amounts s) + refunded (s_amounts s) < deposited (s_amounts s);
  sm_canceled_amount : st = Canceled -> streamed = deposited (s_amounts s) - refunded (s_amounts s) /\ withdrawn (s_amounts s) < streamed;
  sm_pending : st = Pending <-> refunded (s_amounts s) = 0 /\ withdrawn (s_amounts s) < deposited (s_amounts s) /\ now < t_start (s_times s);
  sm_pending_amount : st = Pending -> streamed = 0;
  sm_streaming : st = Streaming -> t_start (s_times s) <= now /\ streamed < deposited (s_amounts s) /\ refunded (s_amounts s) = 0;
  sm_settled : st = Settled -> streamed = deposited (s_amounts s) /\ withdrawn (s_amounts s) < deposited (s_amounts s) /\ refunded (s_amounts s) = 0;
  sm_cold : st = Canceled \/ st = Depleted -> s_cancelable s = false }.

Ltac fin := repeat split; intros; repeat match goal with H : _ /\ _ |- _ => destruct H end; try discriminate; try lia.
Lemma status_at_meaning s now : stream_ok s -> status_meaning s now (entitled s now) (status_at s now).
Proof.
  intros Hok. pose proof (so_depleted _ Hok) as Hd. pose proof (so_canceled _ Hok) as Hc. pose proof (so_flags _ Hok) as Hf.
  pose proof (so_budget _ Hok). pose proof (so_refunded _ Hok). pose proof (entitled_bounds s now Hok) as Hb.
  unfold status_at. destruct (s_depleted s) eqn:Ed.
  { assert (withdrawn (s_amounts s) + refunded (s_amounts s) = deposited (s_amounts s)) by (by apply Hd).
    fin. apply Hf. by right. }
  assert (withdrawn (s_amounts s) + refunded (s_amounts s) <> deposited (s_amounts s)) as Hnd by (intros Hx; apply Hd in Hx; done).
  destruct (s_canceled s) eqn:Ec.
  { assert (0 < refunded (s_amounts s)) by (by apply Hc).
    assert (entitled s now = deposited (s_amounts s) - refunded (s_amounts s)) by (unfold entitled; by rewrite Ed, Ec).
    fin. apply Hf. by left. }
  assert (refunded (s_amounts s) = 0) as Hr0.
  { destruct (Z.eq_dec (refunded (s_amounts s)) 0); [done|]. assert (false = true) by (apply Hc; lia). done. }
  assert (entitled s now = stream_schedule s now) as He by (unfold entitled; by rewrite Ed, Ec).
  destruct (Z.ltb_spec now (t_start (s_times s))) as [Hlt|Hge].
  { assert (entitled s now = 0).
    { rewrite He. unfold stream_schedule, schedule. by rewrite (proj2 (Z.ltb_lt _ _) Hlt). }
    fin. by destruct H2. }
  destruct (Z.ltb_spec (entitled s now) (deposited (s_amounts s))) as [Hl|Hg]; fin; by destruct H1.
Qed.

Theorem C17_status_and_amounts : forall E w k nft s,
  env_ok E -> reachable E w -> stream_at E w k nft s ->
  exists st x, status_of_view E k nft w = Ok st /\ streamed_amount_of E k nft w = Ok x /\
    status_meaning s (get_current_time w) x st.
Proof.
  intros E w k nft s HE Hr Hat. pose proof (reachable_inv _ _ HE Hr) as Hi. pose proof (view_at _ _ _ _ _ Hi Hat) as Hv.
  pose proof (inv_stream_ok _ _ _ _ Hi (proj1 Hat)) as Hok.
  exists (status_at s (get_current_time w)), (entitled s (get_current_time w)).
  split; [by apply status_view|]. split; [by apply streamed_view|]. by apply status_at_meaning.
Qed.
Example C17_example : exists s1 s3 s4, reachable E0 w1 /\ reachable E0 w3 /\ reachable E0 w4 /\
  stream_at E0 w1 (kStream kSender 1) (kNft kSender 1) s1 /\ stream_at E0 w3 (kStream kSender 1) (kNft kSender 1) s3 /\
  stream_at E0 w4 (kStream kSender 1) (kNft kSender 1) s4 /\
  status_of_view E0 (kStream kSender 1) (kNft kSender 1) w1 = Ok Pending /\
  status_of_view E0 (kStream kSender 1) (kNft kSender 1) w3 = Ok Canceled /\
  status_of_view E0 (kStream kSender 1) (kNft kSender 1) w4 = Ok Depleted /\
  status_of_view E0 (kStream kSender 2) (kNft kSender 2) w1 = Ok Streaming /\
  status_of_view E0 (kStream kSender 2) (kNft kSender 2) w7 = Ok Settled.
Proof.
  eexists _, _, _. split; [eapply history_reach, w1_hist|]. split; [eapply history_reach, w3_hist|]. split; [eapply history_reach, w4_hist|].
  split; [split; [vm_compute; reflexivity|exists 255; vm_compute; reflexivity]|].
  split; [split; [vm_compute; reflexivity|exists 255; vm_compute; reflexivity]|].
  split; [split; [vm_compute; reflexivity|exists 255; vm_compute; reflexivity]|].
  split; [vm_compute; reflexivity|]. split; [vm_compute; reflexivity|]. split; [vm_compute; reflexivity|]. split; vm_compute; reflexivity.
Qed.

(** The status a stream may have later, row by row. *)
Definition may_become (a b : status) : Prop :=
  match a with
  | Pending => True
  | Streaming => b <> Pending
  | Settled => b = Settled \/ b = Depleted
  | Canceled => b = Canceled \/ b = Depleted
  | Depleted => b = Depleted
  end.
Lemma may_become_trans a b c : may_become a b -> may_become b c -> may_become a c.
Proof. destruct a, b, c; simpl; intuition congruence. Qed.

Lemma status_time s now now' : stream_ok s -> now <= now' -> may_become (status_at s now) (status_at s now').
Proof.
  intros Hok Hle. pose proof (entitled_mono s now now' Hok Hle) as Hm. pose proof (so_refunded _ Hok). unfold status_at.
  pose proof (entitled_bounds s now' Hok).
  destruct (s_depleted s); [done|]. destruct (s_canceled s); [by left|].
  destruct (Z.ltb_spec now (t_start (s_times s))); [done|].
  destruct (Z.ltb_spec now' (t_start (s_times s))); [lia|].
  destruct (Z.ltb_spec (entitled s now) (deposited (s_amounts s))); simpl; destruct (Z.ltb_spec (entitled s now') (deposited (s_amounts s))); try done; try lia.
  by left.
Qed.
Lemma status_step E sg w w' evs k s ix s' : stream_ok s -> stream_change E sg w w' evs k s ix s' ->
  may_become (status_at s (get_current_time w)) (status_at s' (get_current_time w)).
Proof.
  intros Hok Hch. pose proof (stream_change_entitled _ _ _ _ _ _ _ _ _ Hok Hch) as He.
  pose proof (stream_change_terms _ _ _ _ _ _ _ _ _ Hch) as (_ & _ & _ & _ & T5 & T6 & _).
  unfold status_at. rewrite He, T5, T6.
  destruct Hch as [ | a' st Hka _ _ _ Hcb _ _ | a' m vt dt st Hka F _ | ix a' am tr' m nt s' vt dt fee wd Hix Ham Hka F _].
  - ifs; simpl; auto.
  - simpl. ifs; simpl; auto.
  - pose proof (cf_not_depleted _ _ _ _ _ _ _ _ _ _ _ F) as Hd. pose proof (cf_not_canceled _ _ _ _ _ _ _ _ _ _ _ F) as Hc.
    pose proof (cf_streamed _ _ _ _ _ _ _ _ _ _ _ F) as Hst. rewrite (streamed_entitled s) in Hst by (done || apply now_range). injection Hst as Hst.
    pose proof (cf_lt _ _ _ _ _ _ _ _ _ _ _ F) as Hlt. rewrite Hd, Hc. simpl.
    destruct (_ <? t_start _); [done|]. rewrite (proj2 (Z.ltb_lt _ _)) by lia. simpl. ifs; done.
  - pose proof (wf_not_depleted _ _ _ _ _ _ _ _ _ _ _ _ _ _ _ _ F) as Hd.
    pose proof (wf_new _ _ _ _ _ _ _ _ _ _ _ _ _ _ _ _ F) as Hn1. apply stream_withdraw_ok in Hn1 as (_ & _ & ->). simpl.
    rewrite Hd. destruct (_ <=? _).
    + ifs; simpl; auto.
    + ifs; simpl; auto.
Qed.

Theorem C16_status_moves_forward : forall E w w' k nft a b,
  env_ok E -> reachable_fwd E w -> later_fwd E w w' ->
  status_of_view E k nft w = Ok a -> status_of_view E k nft w' = Ok b -> may_become a b.
Proof.
  intros E w w' k nft a b HE Hr Hl Ha Hb. pose proof (reachable_inv _ _ HE (fwd_reachable _ _ Hr)) as Hi.
  unfold status_of_view in Ha, Hb.
  destruct (stream_view E k nft w) as [s|] eqn:Hv; [|done]. destruct (stream_view E k nft w') as [s'|] eqn:Hv'; [|done].
  destruct (stream_view_inv _ _ _ _ _ Hv) as (Hk & _). destruct (stream_view_inv _ _ _ _ _ Hv') as (Hk' & _).
  pose proof (inv_stream_ok _ _ _ _ Hi Hk) as Hok.
  assert (Ha' : status_of_view E k nft w = Ok a) by (unfold status_of_view; by rewrite Hv).
  assert (Hb' : status_of_view E k nft w' = Ok b) by (unfold status_of_view; by rewrite Hv').
  rewrite (status_view _ _ _ _ _ Hv Hok) in Ha'. injection Ha' as <-.
  destruct Hl as (tr & Hrun & Hcl).
  destruct (run_stream (fun w1 s1 => 0 <= wclock w1 <= U64_MAX /\ may_become (status_at s (get_current_time w)) (status_at s1 (get_current_time w1)))
    E forward_clock w s tr w' k HE Hi Hrun Hk) as (s1 & Hk1 & _ & Hm).
  - split; [done|]. destruct (status_at s _); simpl; auto.
  - intros w1 ac evs w2 s1 s2 Hi1 Hst Hk1 Hk2 Hok1 [Hc1 Hm1] Hch. split; [destruct (step_clock_fwd _ _ _ _ _ HE Hst); lia|].
    eapply may_become_trans; [exact Hm1|].
    destruct Hch as [(sg & ix & _ & _ & _ & Hcc & Hch)|(_ & -> & _)].
    + rewrite (now_same w1 w2) by done. exact (status_step _ _ _ _ _ _ _ _ _ Hok1 Hch).
    + apply status_time; [done|]. destruct (step_clock_fwd _ _ _ _ _ HE Hst) as [Hcc|?].
      * by rewrite (now_same w1 w2) by done.
      * rewrite !now_clock by lia. lia.
  - rewrite Hk' in Hk1. injection Hk1 as <-.
    pose proof (run_inv _ _ _ _ _ HE Hi Hrun) as Hi'.
    rewrite (status_view _ _ _ _ _ Hv' (inv_stream_ok _ _ _ _ Hi' Hk')) in Hb'. injection Hb' as <-. exact Hm.
Qed.
(** Depleted and Canceled do not depend on the clock at all: they stay even if the clock misbehaves. *)
Theorem C16_cold_statuses_stay : forall E w w' k nft a b,
  env_ok E -> reachable E w -> later E w w' ->
  status_of_view E k nft w = Ok a -> status_of_view E k nft w' = Ok b ->
  (a = Depleted -> b = Depleted) /\ (a = Canceled -> b = Canceled \/ b = Depleted).
Proof.
  intros E w w' k nft a b HE Hr [tr Hrun] Ha Hb. pose proof (reachable_inv _ _ HE Hr) as Hi.
  unfold status_of_view in Ha, Hb.
  destruct (stream_view E k nft w) as [s|] eqn:Hv; [|done]. destruct (stream_view E k nft w') as [s'|] eqn:Hv'; [|done].
  destruct (stream_view_inv _ _ _ _ _ Hv) as (Hk & _). destruct (stream_view_inv _ _ _ _ _ Hv') as (Hk' & _).
  pose proof (inv_stream_ok _ _ _ _ Hi Hk) as Hok.
  assert (Ha' : status_of_view E k nft w = Ok a) by (unfold status_of_view; by rewrite Hv).
  assert (Hb' : status_of_view E k nft w' = Ok b) by (unfold status_of_view; by rewrite Hv').
  rewrite (status_view _ _ _ _ _ Hv Hok) in Ha'. injection Ha' as <-.
  pose proof (run_inv _ _ _ _ _ HE Hi Hrun) as Hi'.
  rewrite (status_view _ _ _ _ _ Hv' (inv_stream_ok _ _ _ _ Hi' Hk')) in Hb'. injection Hb' as <-.
  destruct (run_stream (fun w1 s1 => (s_depleted s = true -> s_depleted s1 = true) /\ (s_canceled s = true -> s_canceled s1 = true))
    E any_clock w s tr w' k HE Hi Hrun Hk) as (s1 & Hk1 & Hd & Hc).
  - done.
  - intros w1 ac evs w2 s1 s2 Hi1 Hst Hk1 Hk2 Hok1 [Hc1 Hm1] [(sg & ix & _ & _ & _ & Hcc & Hch)|(_ & -> & _)]; [|done].
    destruct Hch as [ | a' st Hka _ _ _ Hcb _ _ | a' m vt dt st Hka F _ | ix a' am tr' m nt s2 vt dt fee wd Hix Ham Hka F _].
    + done.
    + done.
    + simpl. split; [|done]. intros Hd. destruct (_ =? 0); [done|]. by apply Hc1.
    + pose proof (wf_new _ _ _ _ _ _ _ _ _ _ _ _ _ _ _ _ F) as Hn1. apply stream_withdraw_ok in Hn1 as (_ & _ & ->). simpl.
      split; [|done]. intros Hd. destruct (_ <=? _); [done|]. by apply Hc1.
  - rewrite Hk' in Hk1. injection Hk1 as <-. unfold status_at. split.
    + intros Hda. destruct (s_depleted s); [by rewrite Hd|].
      revert Hda; ifs; done.
    + intros Hca. destruct (s_depleted s); [done|]. destruct (s_canceled s).
      * rewrite Hc by done. destruct (s_depleted s'); auto.
      * revert Hca; ifs; done.
Qed.
Example C16_example : reachable_fwd E0 w1 /\ later_fwd E0 w1 w4 /\
  status_of_view E0 (kStream kSender 1) (kNft kSender 1) w1 = Ok Pending /\
  status_of_view E0 (kStream kSender 1) (kNft kSender 1) w2 = Ok Streaming /\
  status_of_view E0 (kStream kSender 1) (kNft kSender 1) w3 = Ok Canceled /\
  status_of_view E0 (kStream kSender 1) (kNft kSender 1) w4 = Ok Depleted.
Proof.
  split; [apply (history_fwd _ tr1); [apply w1_hist|vm_compute; reflexivity]|].
  split; [exact w14_fwd|].
  split; [vm_compute; reflexivity|]. split; [vm_compute; reflexivity|]. split; vm_compute; reflexivity.
Qed.

(** ** C21: the terms of a stream are immutable, and it is never removed *)
Theorem C21_terms_immutable : forall E w w' k nft s,
  env_ok E -> reachable E w -> later E w w' -> stream_at E w k nft s ->
  exists s', stream_view E k nft w' = Ok s' /\
    s_sender s' = s_sender s /\ s_mint s' = s_mint s /\ deposited (s_amounts s') = deposited (s_amounts s) /\
    start_unlock (s_amounts s') = start_unlock (s_amounts s) /\ cliff_unlock (s_amounts s') = cliff_unlock (s_amounts s) /\
    t_start (s_times s') = t_start (s_times s) /\ t_cliff (s_times s') = t_cliff (s_times s) /\ t_end (s_times s') = t_end (s_times s) /\
    s_salt s' = s_salt s /\ s_bump s' = s_bump s.
Proof.
  intros E w w' k nft s HE Hr Hl Hat. pose proof (reachable_inv _ _ HE Hr) as Hi.
  destruct (later_stream _ _ _ _ _ _ HE Hi Hl Hat) as (s' & Hat' & (T1 & T2 & T3 & T4 & T5 & T6 & T7 & T8)).
  exists s'. split; [apply view_at; [|done]; apply (reachable_inv _ _ HE); by eapply reachable_later|].
  rewrite T5. split_and!; done.
Qed.
Example C21_example : exists s, reachable E0 w1 /\ later E0 w1 w4 /\
  stream_at E0 w1 (kStream kSender 1) (kNft kSender 1) s /\ deposited (s_amounts s) = 1000.
Proof.
  eexists. split; [eapply history_reach, w1_hist|].
  split; [exact (later_fwd_later _ _ _ w14_fwd)|].
  split; [split; [vm_compute; reflexivity|exists 255; vm_compute; reflexivity]|reflexivity].
Qed.

(** ** C23: one stream per (sender, salt) *)

Definition is_create (ix : lockup_ix) (sender salt : Z) : Prop :=
  (exists a p, ix = LCreateTs a p /\ ca_sender a = sender /\ p_salt p = salt) \/
  (exists a q, ix = LCreateDur a q /\ ca_sender a = sender /\ q_salt q = salt).

Lemma is_create_outcome E sg ix sender salt w w' evs : is_create ix sender salt -> lockup_exec E sg ix w = Ok (w', evs) ->
  exists a p, create_outcome E sg a p w w' /\ ca_sender a = sender /\ p_salt p = salt.
Proof.
  intros [(a & p & -> & Hs & Hp)|(a & q & -> & Hs & Hp)] Hx.
  - exists a, p. split; [by eapply C06_create|done].
  - exists a, (as_timestamps q (get_current_time w)). split; [by apply (C06_create_durations _ _ _ _ _ _ _ Hx)|done].
Qed.

(** While there is a stream of that sender and salt, create fails, whatever else is passed. *)
Theorem C23_no_second_create : forall E w k s w2 sg ix,
  env_ok E -> reachable E w -> wdat w !! k = Some (DStream s) -> later E w w2 ->
  is_create ix (s_sender s) (s_salt s) -> is_ok (lockup_exec E sg ix w2) = false.
Proof.
  intros E w k s w2 sg ix HE Hr Hk Hl Hix. destruct (lockup_exec E sg ix w2) as [[w3 evs]|] eqn:Hx; [|done]. exfalso.
  destruct (is_create_outcome _ _ _ _ _ _ _ _ Hix Hx) as (a & p & Ho & Hs & Hp).
  pose proof (reachable_inv _ _ HE Hr) as Hi. destruct (stream_at_inv _ _ _ _ Hi Hk) as [nft Hat].
  destruct (later_stream _ _ _ _ _ _ HE Hi Hl Hat) as (s2 & [Hk2 [b Hb]] & Ht).
  pose proof (reachable_inv _ _ HE (reachable_later _ _ _ Hr Hl)) as Hi2.
  destruct (si_nft _ _ _ _ (li_stream _ _ (inv_lockup _ _ Hi2) _ _ Hk2)) as (nft' & b' & m & au & Hn & _ & Hm & _).
  destruct Ht as (T1 & _ & T3 & _). rewrite T1, T3 in Hn.
  destruct (co_stream _ _ _ _ _ _ Ho) as (s3 & _ & [_ [b3 Hb3]] & Hfs).
  rewrite (fs_sender _ _ _ Hfs), (fs_salt _ _ _ Hfs), Hs, Hp in Hb3.
  destruct (fpa_fun _ _ _ _ _ _ _ Hn Hb3) as [-> _].
  destruct (co_nft_new _ _ _ _ _ _ Ho) as [Hnone _]. congruence.
Qed.
Theorem C23_create_once : forall E w sg ix w1 evs sender salt w2 sg' ix',
  env_ok E -> reachable E w -> signers_ok E sg -> is_create ix sender salt -> lockup_exec E sg ix w = Ok (w1, evs) ->
  later E w1 w2 -> is_create ix' sender salt -> is_ok (lockup_exec E sg' ix' w2) = false.
Proof.
  intros E w sg ix w1 evs sender salt w2 sg' ix' HE Hr Hsg Hix Hx Hl Hix'.
  destruct (is_create_outcome _ _ _ _ _ _ _ _ Hix Hx) as (a & p & Ho & Hs & Hp).
  destruct (co_stream _ _ _ _ _ _ Ho) as (s & _ & [Hk _] & Hfs).
  apply (C23_no_second_create E w1 (ca_stream a) s w2); [done| |done|done|].
  - eapply reachable_later; [exact Hr|]. eapply (step_later E any_clock). constructor; [exact Hsg|exact Hx].
  - by rewrite (fs_sender _ _ _ Hfs), (fs_salt _ _ _ Hfs), Hs, Hp.
Qed.
Theorem C23_unique : forall E w k1 s1 k2 s2,
  env_ok E -> reachable E w -> wdat w !! k1 = Some (DStream s1) -> wdat w !! k2 = Some (DStream s2) ->
  s_sender s1 = s_sender s2 -> s_salt s1 = s_salt s2 -> k1 = k2.
Proof.
  intros E w k1 s1 k2 s2 HE Hr H1 H2 Hs Hsa. pose proof (reachable_inv _ _ HE Hr) as Hi.
  destruct (si_nft _ _ _ _ (li_stream _ _ (inv_lockup _ _ Hi) _ _ H1)) as (n1 & b1 & m1 & a1 & N1 & K1 & _).
  destruct (si_nft _ _ _ _ (li_stream _ _ (inv_lockup _ _ Hi) _ _ H2)) as (n2 & b2 & m2 & a2 & N2 & K2 & _).
  rewrite <- Hs, <- Hsa in N2. destruct (fpa_fun _ _ _ _ _ _ _ N1 N2) as [-> _]. by destruct (fpa_fun _ _ _ _ _ _ _ K1 K2) as [-> _].
Qed.
(** The accounts there are, by what their address is derived from. *)
Definition lockup_account_of (E : env) (w : world) (x : lockup_address) : Prop :=
  match x with
  | ATreasury | ACollectionData | ACollectionMint => True
  | AStreamNft sender salt => exists k s, wdat w !! k = Some (DStream s) /\ s_sender s = sender /\ s_salt s = salt
  | AStream nft => exists k s, stream_at E w k nft s
  end.
(** stream_exists, called with the NFT mint it asks for, answers true exactly when the stream exists, unless that address
    collides with that of another account there is. *)
Theorem C23_stream_exists : forall E w nft sender salt b,
  env_ok E -> reachable E w -> key_ok sender -> 0 <= salt <= U128_MAX ->
  find_program_address E PLockup (nft_mint_seeds sender salt) = Ok (nft, b) ->
  exists r, stream_exists E nft sender salt w = Ok r /\
  ((r = true <-> exists k s, stream_at E w k nft s /\ s_sender s = sender /\ s_salt s = salt) \/
   exists x b', lockup_account_of E w x /\ lockup_address_ok x /\ x <> AStreamNft sender salt /\
     collides E PLockup (seed_string (lockup_seeds x) b') (seed_string (nft_mint_seeds sender salt) b)).
Proof.
  intros E w nft sender salt b HE Hr Hks Hsalt Hn. pose proof (reachable_inv _ _ HE Hr) as Hi.
  assert (Hv : stream_exists E nft sender salt w = Ok (match wdat w !! nft with Some _ => true | None => false end)).
  { unfold stream_exists, check_seeds. rewrite Hn. cbn [rbind]. by rewrite Z.eqb_refl. }
  eexists. split; [exact Hv|]. destruct (fpa_pda _ _ _ _ _ HE Hn) as [Hpda Hkn]. pose proof (fpa_cpa _ _ _ _ _ Hn) as [Hc _].
  assert (Hcol : forall x b', lockup_account_of E w x -> lockup_address_ok x -> find_program_address E PLockup (lockup_seeds x) = Ok (nft, b') ->
    x = AStreamNft sender salt \/
    exists x b', lockup_account_of E w x /\ lockup_address_ok x /\ x <> AStreamNft sender salt /\
     collides E PLockup (seed_string (lockup_seeds x) b') (seed_string (nft_mint_seeds sender salt) b)).
  { intros x b' Hax Hx Hf. apply fpa_cpa in Hf as [Hf _]. destruct (cpa_cases _ _ _ _ _ _ _ Hf Hc) as [He|Hcl].
    - left. by apply (lockup_seeds_inj x (AStreamNft sender salt)) in He as [? _].
    - assert (x = AStreamNft sender salt \/ x <> AStreamNft sender salt) as [?|Hne].
      { destruct x; try (right; discriminate). destruct (Z.eq_dec sender0 sender) as [->|]; [|right; congruence].
        destruct (Z.eq_dec salt0 salt) as [->|]; [by left|right; congruence]. }
      + by left.
      + right. exists x, b'. split; [exact Hax|]. split; [exact Hx|]. split; [exact Hne|exact Hcl]. }
  destruct (wdat w !! nft) as [d|] eqn:Hd.
  - assert (lockup_known E w nft) as Hkn' by (apply (reachable_pdas _ _ HE Hr); [done|congruence]).
    destruct Hkn' as [[b' Hf]|[[b' Hf]|[[b' Hf]|[(s & Hs)|(ks & s & b' & Hs & Hf)]]]].
    + destruct (Hcol ATreasury b' I I Hf) as [?|?]; [done|by right].
    + destruct (Hcol ACollectionData b' I I Hf) as [?|?]; [done|by right].
    + destruct (Hcol ACollectionMint b' I I Hf) as [?|?]; [done|by right].
    + destruct (si_nft _ _ _ _ (li_stream _ _ (inv_lockup _ _ Hi) _ _ Hs)) as (n1 & b1 & m1 & a1 & N1 & K1 & _).
      destruct (Hcol (AStream n1) (s_bump s)) as [?|?]; [exists nft, s; split; [exact Hs|exists b1; exact N1]|by apply fpa_pda in N1 as [_ ?]|exact K1|done|by right].
    + destruct (si_keys _ _ _ _ (li_stream _ _ (inv_lockup _ _ Hi) _ _ Hs)) as (_ & Hk1 & Hk2).
      destruct (Hcol (AStreamNft (s_sender s) (s_salt s)) b') as [[= He1 He2]|?]; [exists ks, s; split; [exact Hs|done]|done|exact Hf| |by right].
      left. split; [|done]. intros _. exists ks, s. split; [split; [done|exists b'; exact Hf]|done].
  - left. split; [done|]. intros (k & s & [Hk [b' Hf]] & Hse & Hsa).
    destruct (si_nft _ _ _ _ (li_stream _ _ (inv_lockup _ _ Hi) _ _ Hk)) as (n1 & b1 & m1 & a1 & N1 & _ & Hm & _).
    destruct (fpa_fun _ _ _ _ _ _ _ N1 Hf) as [-> _]. congruence.
Qed.
(** Once true, always true. *)
Theorem C23_exists_forever : forall E w w' k nft s,
  env_ok E -> reachable E w -> stream_at E w k nft s -> later E w w' ->
  stream_exists E nft (s_sender s) (s_salt s) w' = Ok true.
Proof.
  intros E w w' k nft s HE Hr Hat Hl. pose proof (reachable_inv _ _ HE Hr) as Hi.
  destruct (later_stream _ _ _ _ _ _ HE Hi Hl Hat) as (s2 & [Hk2 [b Hb]] & Ht).
  pose proof (reachable_inv _ _ HE (reachable_later _ _ _ Hr Hl)) as Hi2.
  destruct (si_nft _ _ _ _ (li_stream _ _ (inv_lockup _ _ Hi2) _ _ Hk2)) as (n1 & b1 & m1 & a1 & N1 & _ & Hm & _).
  destruct (fpa_fun _ _ _ _ _ _ _ N1 Hb) as [-> _]. destruct Ht as (T1 & _ & T3 & _). rewrite T1, T3 in Hb.
  unfold stream_exists, check_seeds. rewrite Hb. cbn [rbind]. rewrite Z.eqb_refl. cbn [ensure rbind].
  assert (forall d, d = Some (DMint m1) -> (match d with Some _ => true | None => false end) = true) as Hgo by (by intros d ->).
  f_equal. apply Hgo. exact Hm.
Qed.
Example C23_example : exists s, reachable E0 w2 /\ wdat w2 !! kStream kSender 1 = Some (DStream s) /\
  s_sender s = kSender /\ s_salt s = 1 /\ later E0 w2 w2 /\
  find_program_address E0 PLockup (nft_mint_seeds kSender 1) = Ok (kNft kSender 1, 255) /\
  stream_exists E0 (kNft kSender 1) kSender 1 w2 = Ok true /\
  stream_exists E0 (kNft kSender 3) kSender 3 w2 = Ok false /\
  is_create (LCreateTs (create_for 1) dep1) kSender 1 /\ is_ok (lockup_exec E0 [kSender] (LCreateTs (create_for 1) dep1) w2) = false.
Proof.
  eexists. split; [eapply history_reach, w2_hist|]. split; [vm_compute; reflexivity|]. split; [reflexivity|]. split; [reflexivity|].
  split; [apply later_refl|]. split; [vm_compute; reflexivity|]. split; [vm_compute; reflexivity|]. split; [vm_compute; reflexivity|].
  split; [left; eexists _, _; split_and!; reflexivity|]. vm_compute; reflexivity.
Qed.

(** ** C24: one NFT per stream *)

Lemma tok_sum_nonneg D m : (forall k t, D !! k = Some (DToken t) -> 0 <= t_amount t) -> 0 <= tok_sum D m.
Proof.
  induction D as [|k d D Hk IH] using map_ind; intros Hn.
  - unfold tok_sum. by rewrite map_fold_empty.
  - rewrite tok_sum_insert_new by done. assert (0 <= tok_of m d).
    { destruct d; simpl; try lia. destruct (_ =? m); [|lia]. apply (Hn k). by rewrite lookup_insert. }
    assert (0 <= tok_sum D m); [|lia]. apply IH. intros k' t Hk'. apply (Hn k'). rewrite lookup_insert_ne; [done|congruence].
Qed.
Lemma tok_sum_two D m k1 t1 k2 t2 : (forall k t, D !! k = Some (DToken t) -> 0 <= t_amount t) ->
  k1 <> k2 -> D !! k1 = Some (DToken t1) -> D !! k2 = Some (DToken t2) -> t_mint t1 = m -> t_mint t2 = m ->
  t_amount t1 + t_amount t2 <= tok_sum D m.
Proof.
  intros Hn Hne H1 H2 M1 M2. rewrite <- (insert_delete D k1 _ H1). rewrite tok_sum_insert_new by apply lookup_delete.
  assert (delete k1 D !! k2 = Some (DToken t2)) as H2' by (by rewrite lookup_delete_ne).
  rewrite <- (insert_delete _ k2 _ H2'). rewrite tok_sum_insert_new by apply lookup_delete. simpl.
  rewrite (proj2 (Z.eqb_eq _ _) M1), (proj2 (Z.eqb_eq _ _) M2).
  assert (0 <= tok_sum (delete k2 (delete k1 D)) m); [|lia].
  apply tok_sum_nonneg. intros k t [_ [_ Hk]%lookup_delete_Some]%lookup_delete_Some. by apply (Hn k).
Qed.

Theorem C24_one_nft : forall E w k nft s,
  env_ok E -> reachable E w -> stream_at E w k nft s ->
  (exists m, wdat w !! nft = Some (DMint m) /\ m_supply m <= 1) /\
  (forall k1 t1 k2 t2, wdat w !! k1 = Some (DToken t1) -> wdat w !! k2 = Some (DToken t2) ->
     t_mint t1 = nft -> t_mint t2 = nft -> 0 < t_amount t1 -> 0 < t_amount t2 -> k1 = k2).
Proof.
  intros E w k nft s HE Hr [Hk [b Hb]]. pose proof (reachable_inv _ _ HE Hr) as Hi.
  destruct (si_nft _ _ _ _ (li_stream _ _ (inv_lockup _ _ Hi) _ _ Hk)) as (n1 & b1 & m & a1 & N1 & _ & Hm & _ & _ & Hsup).
  destruct (fpa_fun _ _ _ _ _ _ _ N1 Hb) as [-> _]. split; [by exists m|].
  intros k1 t1 k2 t2 H1 H2 M1 M2 P1 P2. destruct (decide (k1 = k2)) as [?|Hne]; [done|exfalso].
  pose proof (inv_sane _ _ Hi) as Hs. destruct (fpa_pda _ _ _ _ _ HE Hb) as [Hpda _].
  pose proof (ts_supply _ _ Hs _ Hpda) as Hle. unfold supply in Hle. rewrite Hm, total_balance_sum in Hle.
  assert (t_amount t1 + t_amount t2 <= tok_sum (wdat w) nft); [|lia].
  apply (tok_sum_two _ _ k1 _ k2); try done. intros k' t' Hk'. apply (ts_range _ _ Hs _ _ Hk').
Qed.

(** So at most one address can act as recipient of a stream at a time, unless the address hash collides on the
    inputs of one of the two calls. *)
Definition nft_address_collision (E : env) (ws : list world) (w : world) (s : stream_data) (a : withdraw_accs) : Prop :=
  (exists nft, nft_mint_of E s nft /\
     collides E PLockup (seed_string (stream_seeds nft) (s_bump s)) (seed_string (stream_seeds (wa_nft_mint a)) (s_bump s))) \/
  (exists nt o b b', wdat w !! wa_nft_ata a = Some (DToken nt) /\ made_for E ws (wa_nft_ata a) nt o /\
     collides E PAssocToken (seed_string (ata_seeds E o (t_mint nt) (t_prog nt)) b)
       (seed_string (ata_seeds E (wa_stream_recipient a) (wa_nft_mint a) (wa_nft_tp a)) b')).
Lemma withdraw_holder E tr ws w k s sg ix a w' evs : env_ok E -> history_via E any_clock tr ws w -> key_ok (tprog_id E SplToken) -> key_ok (tprog_id E Token2022) ->
  wdat w !! k = Some (DStream s) -> is_withdraw ix a -> wa_stream a = k -> lockup_exec E sg ix w = Ok (w', evs) ->
  nft_address_collision E ws w s a \/
  exists nft nt, stream_at E w k nft s /\ wdat w !! wa_nft_ata a = Some (DToken nt) /\ t_mint nt = nft /\ t_amount nt = 1 /\ t_owner nt = wa_stream_recipient a.
Proof.
  intros HE Hr K1 K2 Hk Hix Ha Hx. subst k.
  destruct (C10_own_nft _ _ _ _ _ _ _ _ _ _ HE Hr K1 K2 Hix Hx Hk) as [Hn (nt & Hnt & Hm)].
  destruct (C10_authorised _ _ _ _ _ _ _ Hix Hx) as [(nt' & Hnt' & Ho & Ham & _) _].
  rewrite Hnt in Hnt'. injection Hnt' as <-.
  destruct Hn as [Hn|(nft & Hn & Hc)]; [|left; left; exists nft; split; [exact Hn|exact Hc]].
  destruct Hm as [Hm|(o & b & b' & Hmf & Hc)]; [|left; right; exists nt, o, b, b'; split; [exact Hnt|split; [exact Hmf|exact Hc]]].
  right. exists (wa_nft_mint a), nt. split; [split; [exact Hk|exact Hn]|]. done.
Qed.
Theorem C24_one_recipient : forall E tr ws w k s sg1 ix1 a1 w1 evs1 sg2 ix2 a2 w2 evs2,
  env_ok E -> history_via E any_clock tr ws w -> key_ok (tprog_id E SplToken) -> key_ok (tprog_id E Token2022) ->
  wdat w !! k = Some (DStream s) ->
  is_withdraw ix1 a1 -> wa_stream a1 = k -> lockup_exec E sg1 ix1 w = Ok (w1, evs1) ->
  is_withdraw ix2 a2 -> wa_stream a2 = k -> lockup_exec E sg2 ix2 w = Ok (w2, evs2) ->
  wa_stream_recipient a1 = wa_stream_recipient a2 \/ nft_address_collision E ws w s a1 \/ nft_address_collision E ws w s a2.
Proof.
  intros E tr ws w k s sg1 ix1 a1 w1 evs1 sg2 ix2 a2 w2 evs2 HE Hvia K1 K2 Hk I1 A1 X1 I2 A2 X2.
  assert (reachable E w) as Hr by (exists tr; exact (via_history _ _ _ _ _ Hvia)).
  destruct (withdraw_holder _ _ _ _ _ _ _ _ _ _ _ HE Hvia K1 K2 Hk I1 A1 X1) as [?|(n1 & t1 & [_ [c1 N1]] & T1 & M1 & Q1 & O1)]; [by right; left|].
  destruct (withdraw_holder _ _ _ _ _ _ _ _ _ _ _ HE Hvia K1 K2 Hk I2 A2 X2) as [?|(n2 & t2 & [_ [c2 N2]] & T2 & M2 & Q2 & O2)]; [by right; right|].
  left. destruct (fpa_fun _ _ _ _ _ _ _ N1 N2) as [-> _].
  assert (wa_nft_ata a1 = wa_nft_ata a2) as Heq.
  { apply (proj2 (C24_one_nft E w k n2 s HE Hr (conj Hk (ex_intro _ _ N2))) _ t1 _ t2); try done; lia. }
  rewrite Heq, T2 in T1. injection T1 as ->. congruence.
Qed.
Example C24_example : exists s m t, reachable E0 w2 /\ stream_at E0 w2 (kStream kSender 1) (kNft kSender 1) s /\
  wdat w2 !! kNft kSender 1 = Some (DMint m) /\ m_supply m = 1 /\
  wdat w2 !! ata kRecipient (kNft kSender 1) SplToken = Some (DToken t) /\ t_amount t = 1 /\ t_mint t = kNft kSender 1 /\
  is_ok (lockup_exec E0 [kRecipient] (LWithdrawMax (withdraw_to 1 kOther)) (T 1500 w2)) = true.
Proof.
  eexists _, _, _. split; [eapply history_reach, w2_hist|].
  split; [split; [vm_compute; reflexivity|exists 255; vm_compute; reflexivity]|].
  split; [vm_compute; reflexivity|]. split; [reflexivity|]. split; [vm_compute; reflexivity|]. split; [reflexivity|].
  split; [vm_compute; reflexivity|]. vm_compute; reflexivity.
Qed.

(** ** C25: the collection counter counts the streams *)
Theorem C25_counter : forall E w k n,
  env_ok E -> reachable E w -> wdat w !! k = Some (DNftCollection n) ->
  exists l : list key, NoDup l /\ (forall x, x ∈ l <-> exists s, wdat w !! x = Some (DStream s)) /\
    nc_total_supply n = Z.of_nat (length l) /\ 0 <= nc_total_supply n.
Proof.
  intros E w k n HE Hr Hk. pose proof (reachable_inv _ _ HE Hr) as Hi.
  destruct (li_coll _ _ (inv_lockup _ _ Hi) _ _ Hk) as [_ Hn].
  exists (elements (dom (streams w))). split; [apply NoDup_elements|]. split; [|split; [|lia]].
  - intros x. rewrite elem_of_elements, elem_of_dom. unfold is_Some. split; intros [s Hs]; exists s; by apply streams_lookup.
  - rewrite Hn. f_equal. by rewrite <- size_dom.
Qed.
(** Streams only exist once the collection does, and there is one collection. *)
Theorem C25_initialized : forall E w,
  env_ok E -> reachable E w ->
  (forall k s, wdat w !! k = Some (DStream s) -> exists kc n, wdat w !! kc = Some (DNftCollection n)) /\
  (forall k1 n1 k2 n2, wdat w !! k1 = Some (DNftCollection n1) -> wdat w !! k2 = Some (DNftCollection n2) -> k1 = k2).
Proof.
  intros E w HE Hr. pose proof (reachable_inv _ _ HE Hr) as Hi. split.
  - intros k s Hk. destruct (li_nocoll _ _ (inv_lockup _ _ Hi)) as [Hno|?]; [by destruct (Hno k s)|done].
  - intros k1 n1 k2 n2 H1 H2. destruct (li_coll _ _ (inv_lockup _ _ Hi) _ _ H1) as [A1 _].
    destruct (li_coll _ _ (inv_lockup _ _ Hi) _ _ H2) as [A2 _]. by destruct (fpa_fun _ _ _ _ _ _ _ A1 A2) as [-> _].
Qed.
Example C25_example : exists n, reachable E0 w2 /\ wdat w2 !! kCollData = Some (DNftCollection n) /\ nc_total_supply n = 2.
Proof. eexists. split; [eapply history_reach, w2_hist|]. split; [vm_compute; reflexivity|reflexivity]. Qed.

(** ** C26: how withdrawals are split does not matter *)
Theorem C26_balance_equation : forall E w k nft s,
  env_ok E -> reachable_fwd E w -> stream_at E w k nft s ->
  exists x y, streamed_amount_of E k nft w = Ok x /\ withdrawable_amount_of E k nft w = Ok y /\
    withdrawn (s_amounts s) + y = x /\ 0 <= y.
Proof.
  intros E w k nft s HE Hr Hat. pose proof (reachable_inv _ _ HE (fwd_reachable _ _ Hr)) as Hi.
  pose proof (view_at _ _ _ _ _ Hi Hat) as Hv. pose proof (inv_stream_ok _ _ _ _ Hi (proj1 Hat)) as Hok.
  pose proof (reachable_fwd_ok _ _ HE Hr _ _ (proj1 Hat)) as Hle.
  eexists _, _. split; [by apply streamed_view|]. split; [by apply withdrawable_view|]. lia.
Qed.
(** Two continuations of the same history, with whatever withdrawals in between: after a withdraw_max at the same
    time the recipient has had the same total, as long as nobody canceled in either. *)
Theorem C26_path_independent : forall E w k s w1 w2 sg1 a1 w1' evs1 sg2 a2 w2' evs2 s1 s2,
  env_ok E -> reachable E w -> wdat w !! k = Some (DStream s) -> later E w w1 -> later E w w2 ->
  get_current_time w1 = get_current_time w2 ->
  wa_stream a1 = k -> lockup_exec E sg1 (LWithdrawMax a1) w1 = Ok (w1', evs1) ->
  wa_stream a2 = k -> lockup_exec E sg2 (LWithdrawMax a2) w2 = Ok (w2', evs2) ->
  wdat w1' !! k = Some (DStream s1) -> wdat w2' !! k = Some (DStream s2) -> s_canceled s1 = false -> s_canceled s2 = false ->
  withdrawn (s_amounts s1) = withdrawn (s_amounts s2) /\ withdrawn (s_amounts s1) = stream_schedule s (get_current_time w1).
Proof.
  intros E w k s w1 w2 sg1 a1 w1' evs1 sg2 a2 w2' evs2 s1 s2 HE Hr Hk L1 L2 Ht A1 X1 A2 X2 K1 K2 C1 C2.
  pose proof (reachable_inv _ _ HE Hr) as Hi. destruct (stream_at_inv _ _ _ _ Hi Hk) as [nft Hat].
  assert (Hone : forall w1 sg1 a1 w1' evs1 s1, later E w w1 -> wa_stream a1 = k -> lockup_exec E sg1 (LWithdrawMax a1) w1 = Ok (w1', evs1) ->
    wdat w1' !! k = Some (DStream s1) -> s_canceled s1 = false -> withdrawn (s_amounts s1) = stream_schedule s (get_current_time w1)).
  { clear - HE Hr Hi Hat. intros w1 sg1 a1 w1' evs1 s1 L1 A1 X1 K1 C1. pose proof (reachable_later _ _ _ Hr L1) as Hr1.
    destruct (C11_withdraw_max_empties _ _ _ _ _ _ HE Hr1 X1) as (s0 & s0' & wd & Ho & _ & _ & Hst).
    destruct (stream_view_inv _ _ _ _ _ (wo_after _ _ _ _ _ _ _ _ Ho)) as (K1' & _). rewrite A1, K1 in K1'. injection K1' as <-.
    pose proof (wo_before _ _ _ _ _ _ _ _ Ho) as Hv. destruct (stream_view_inv _ _ _ _ _ Hv) as (K0 & _).
    pose proof (reachable_stream_ok _ _ _ _ HE Hr1 K0) as Hok. rewrite (streamed_view _ _ _ _ _ Hv Hok) in Hst. injection Hst as <-.
    destruct (later_stream _ _ _ _ _ _ HE Hi L1 Hat) as (s0' & [K0' _] & (T1 & T2 & T3 & T4 & T5 & T6 & T7 & T8)).
    rewrite A1, K0' in K0. injection K0 as ->.
    unfold entitled. rewrite <- (wo_canceled _ _ _ _ _ _ _ _ Ho), C1.
    assert (s_depleted s0 = false) as ->.
    { destruct (s_depleted s0) eqn:Hd; [|done]. apply (so_depleted _ Hok) in Hd.
      pose proof (wo_range _ _ _ _ _ _ _ _ Ho). pose proof (wo_view _ _ _ _ _ _ _ _ Ho) as Hw.
      destruct (withdrawable_view_inv _ _ _ _ _ _ Hv Hok Hw) as [Hwd _]. pose proof (entitled_bounds s0 (get_current_time w1) Hok). 
      pose proof (so_depleted _ Hok) as Hd'. assert (s_depleted s0 = true) as Hdd by (by apply Hd'). unfold entitled in Hwd. rewrite Hdd in Hwd. lia. }
    unfold stream_schedule. by rewrite T5, T6, T7, T8. }
  pose proof (Hone _ _ _ _ _ _ L1 A1 X1 K1 C1) as H1. pose proof (Hone _ _ _ _ _ _ L2 A2 X2 K2 C2) as H2.
  rewrite <- Ht in H2. split; congruence.
Qed.
(** Stream 2 at 1500 and 1700 against only at 1700. *)
Definition split_a : world := T 1700 (script E0 [CT 1500; CL [kRecipient] (LWithdraw (withdraw_to 2 kRecipient) 700)] w1).
Definition split_b : world := T 1700 w1.
Example C26_example : exists s, reachable E0 w1 /\ wdat w1 !! kStream kSender 2 = Some (DStream s) /\
  later E0 w1 split_a /\ later E0 w1 split_b /\
  is_ok (lockup_exec E0 [kRecipient] (LWithdrawMax (withdraw_to 2 kRecipient)) split_a) = true /\
  is_ok (lockup_exec E0 [kRecipient] (LWithdrawMax (withdraw_to 2 kRecipient)) split_b) = true /\
  withdrawable_amount_of E0 (kStream kSender 2) (kNft kSender 2) split_a = Ok 1400 /\
  withdrawable_amount_of E0 (kStream kSender 2) (kNft kSender 2) split_b = Ok 2100.
Proof.
  eexists. split; [eapply history_reach, w1_hist|]. split; [vm_compute; reflexivity|].
  split; [apply (script_later [CT 1500; CL [kRecipient] (LWithdraw (withdraw_to 2 kRecipient) 700); CT 1700] tr1); [apply w1_hist|vm_compute; reflexivity]|].
  split; [apply (script_later [CT 1700] tr1); [apply w1_hist|vm_compute; reflexivity]|].
  split; [vm_compute; reflexivity|]. split; [vm_compute; reflexivity|]. split; vm_compute; reflexivity.
Qed.

Print Assumptions C07_never_more_than_deposit.
Print Assumptions C07_vault_outflow.
Print Assumptions C08_vault_stays.
Print Assumptions C14_irreversible.
Print Assumptions C15_after_renounce.
Print Assumptions C16_status_moves_forward.
Print Assumptions C17_status_and_amounts.
Print Assumptions C21_terms_immutable.
Print Assumptions C23_create_once.
Print Assumptions C23_stream_exists.
Print Assumptions C24_one_recipient.
Print Assumptions C25_counter.
Print Assumptions C26_path_independent.
