(** C86: the phases of a campaign come once and in one order. *)
From Verif Require Export PropClawback PropCosts.
From Verif Require Import Lockup.

(** ** What the views said stays said *)
Theorem C86_views_never_go_back : forall E w w' k, env_ok E -> reachable_fwd E w -> later_fwd E w w' ->
  (has_campaign_started_view k w = Ok true -> has_campaign_started_view k w' = Ok true) /\
  (has_expired_view k w = Ok true -> has_expired_view k w' = Ok true) /\
  (forall receipt index, has_claimed E k receipt index w = Ok true -> has_claimed E k receipt index w' = Ok true).
Proof.
  intros E w w' k HE Hrf Hl. pose proof (fwd_reachable _ _ Hrf) as Hr. pose proof (later_fwd_later _ _ _ Hl) as Hl'.
  pose proof (later_fwd_clock _ _ _ HE Hl) as Hclk.
  assert (get_current_time w <= get_current_time w') as Hnow by (rewrite !now_clock; lia).
  assert (forall c, campaign_view k w = Ok c -> exists c', campaign_view k w' = Ok c' /\ same_campaign_terms c c') as Hcc.
  { intros c Hc. exact (C43_terms E w w' k c HE Hr Hl' Hc). }
  unfold has_campaign_started_view, has_expired_view. unfold campaign_view in Hcc. split_and!.
  - destruct (load_campaign w k) as [c|e] eqn:Hc; cbn [rbind]; [|discriminate 1].
    destruct (Hcc c eq_refl) as (c' & -> & (_ & _ & _ & T4 & _)). cbn [rbind]. unfold has_campaign_started. intros [= H]. f_equal. lia.
  - destruct (load_campaign w k) as [c|e] eqn:Hc; cbn [rbind]; [|discriminate 1].
    destruct (Hcc c eq_refl) as (c' & -> & (_ & _ & _ & _ & T5 & _)). cbn [rbind]. unfold has_expired. intros [= H]. f_equal. lia.
  - intros r i (( c & Hc) & (b & Hb) & Hd)%has_claimed_inv. apply has_claimed_inv.
    destruct (C43_terms E w w' k c HE Hr Hl' Hc) as (c' & Hc' & _).
    split; [exists c'; exact Hc'|]. split; [exists b; exact Hb|]. split; [intros _|reflexivity].
    assert (wdat w !! r <> None) as Hne by (apply Hd; reflexivity). destruct (wdat w !! r) as [d|] eqn:Hdr; [|exfalso; exact (Hne eq_refl)].
    pose proof (fpa_pda _ _ _ _ _ HE Hb) as [Hpda _].
    destruct (reachable_pdas E w HE Hr) as [_ Hp]. pose proof (Hp _ _ Hpda Hdr) as Hown.
    assert (exists p n s, owned d = Some (p, n, s)) as (p & n & s & Ho).
    { clear - Hown. destruct d; try discriminate Hown; do 3 eexists; reflexivity. }
    destruct (C67_accounts_last E w w' r d p n s HE Hr Hl' Hdr Ho) as (d2 & Hd2 & _). rewrite Hd2. discriminate 1.
Qed.

(** ** Claims lie between the start and the expiration *)
Lemma step_claims_window E w a evs w' k : env_ok E -> inv E w -> reachable E w -> step E forward_clock w a evs w' -> claims_of k evs <> [] ->
  exists c, wdat w !! k = Some (DCampaign c) /\ window c (get_current_time w) /\ wclock w' = wclock w.
Proof.
  intros HE Hi Hr Hst Hne. pose proof Hst as Hst'. destruct Hst as [sg ix evs w' Hsg Hx|sg ix evs w' Hsg Hx|w' Ho Hc].
  - rewrite (proj1 (lockup_no_claims _ _ _ _ _ _ k Hx)) in Hne. exfalso. exact (Hne eq_refl).
  - pose proof (merkle_clock _ _ _ _ _ _ HE Hsg Hx) as Hclk.
    destruct (merkle_claims _ _ _ _ _ _ Hx) as [(ac & i & am & pf & tr' & m & c & vt & dt & fee & -> & F & Hcl)|[_ Hcl]]; rewrite Hcl in Hne;
      [|exfalso; exact (Hne eq_refl)].
    destruct (Z.eqb_spec (la_campaign ac) k) as [<-|]; [|exfalso; exact (Hne eq_refl)].
    pose proof (lf_campaign _ _ _ _ _ _ _ _ _ _ _ _ _ _ _ F) as Hk. exists c. split; [exact Hk|]. split; [|exact Hclk].
    apply load_campaign_ok in Hk. exact (C33_claim_in_window E sg ac i am pf w w' evs c HE Hr Hk Hx).
  - exfalso. exact (Hne eq_refl).
Qed.

Theorem C86_nothing_before_start : forall E tr w k c, env_ok E -> 0 <= wclock w <= U64_MAX -> history E forward_clock tr w ->
  campaign_view k w = Ok c -> get_current_time w < c_start c ->
  claims_of k (events tr) = [] /\ c_first_claim c = 0.
Proof.
  intros E tr w k c HE Hw Hh Hc Hst.
  assert (claims_of k (events tr) = []) as Hcl; [|split; [exact Hcl|exact (C39_unclaimed E tr w k c HE (history_any _ _ _ _ Hh) Hc Hcl)]].
  destruct Hh as (w0 & Hg & Hr). revert c Hc Hst Hw. induction Hr as [|tr w a evs w' Hr IH Hs]; intros c Hc Hst Hw; [reflexivity|].
  pose proof (run_inv _ _ _ _ _ HE (genesis_inv _ _ Hg) Hr) as Hi. apply load_campaign_ok in Hc as Hk.
  rewrite events_app, events_one, claims_of_app.
  assert (0 <= wclock w <= wclock w') as Hclk by (destruct (step_clock_fwd _ _ _ _ _ HE Hs); lia).
  assert (get_current_time w <= get_current_time w') as Hnow by (rewrite !now_clock; lia).
  assert (forall c0, wdat w !! k = Some (DCampaign c0) -> get_current_time w < c_start c0) as Hprev.
  { intros c0 Hk0. destruct (step_campaign _ _ _ _ _ _ _ _ HE (inv_sane _ _ Hi) Hs Hk0) as (c' & Hk' & Hch). assert (c' = c) as -> by congruence.
    assert (c_start c0 = c_start c) as ->; [|lia].
    destruct Hch as [(sg & ix & _ & _ & _ & _ & Hch)|(_ & -> & _)]; [|reflexivity].
    destruct (campaign_change_terms _ _ _ _ _ _ _ _ _ Hch) as (_ & _ & _ & T4 & _). congruence. }
  assert (history E forward_clock tr w) as Hh by (exists w0; split; [exact Hg|exact Hr]).
  assert (claims_of k (events tr) = []) as ->.
  { destruct (claims_of k (events tr)) as [|e l] eqn:Hcl; [reflexivity|].
    destruct (history_claims E forward_clock tr w k HE Hh) as (c0 & Hk0); [rewrite Hcl; discriminate 1|].
    rewrite <- Hcl in *. apply (IH c0); [apply load_campaign_ok; exact Hk0|exact (Hprev _ Hk0)|lia]. }
  cbn [app]. destruct (claims_of k evs) as [|e l] eqn:Hcl; [reflexivity|]. exfalso.
  destruct (step_claims_window E w a evs w' k HE Hi (ex_intro _ tr (history_any _ _ _ _ Hh)) Hs) as (c0 & Hk0 & [Hwin _] & _); [rewrite Hcl; discriminate 1|].
  specialize (Hprev _ Hk0). lia.
Qed.

(** From the expiration on the campaign never changes again, nobody claims, and the creator may always take back. *)
Theorem C86_nothing_after_expiry : forall E w tr w' k c, env_ok E -> reachable_fwd E w -> run E forward_clock w tr w' ->
  campaign_view k w = Ok c -> expired c (get_current_time w) ->
  claims_of k (events tr) = [] /\ campaign_view k w' = Ok c /\ clawback_allowed c (get_current_time w').
Proof.
  intros E w tr w' k c HE [Hw Hr] Hrun Hc Hex.
  assert (reachable E w) as Hrw by (apply fwd_reachable; split; assumption).
  assert (forall tr w', run E forward_clock w tr w' -> expired c (get_current_time w')) as Hexp.
  { intros tr1 w1 Hrun1. pose proof (run_clock_fwd _ _ _ _ HE Hrun1 Hw). unfold expired in *. rewrite now_clock in * by lia. lia. }
  assert (claims_of k (events tr) = [] /\ campaign_view k w' = Ok c) as [H1 H2].
  2: { split; [exact H1|]. split; [exact H2|]. right. right. exact (Hexp _ _ Hrun). }
  induction Hrun as [|tr w1 a evs w2 Hrun IH Hs]; [split; [reflexivity|exact Hc]|].
  destruct IH as [IH1 IH2]. rewrite events_app, events_one, claims_of_app, IH1. cbn [app].
  pose proof (run_inv _ _ _ _ _ HE (reachable_inv _ _ HE Hrw) Hrun) as Hi.
  assert (reachable E w1) as Hr1 by (apply (reachable_later E w w1 Hrw); exists tr; apply (run_any _ _ _ _ _ Hrun)).
  apply load_campaign_ok in IH2.
  destruct (step_campaign _ _ _ _ _ _ _ _ HE (inv_sane _ _ Hi) Hs IH2) as (c' & Hk' & Hch).
  assert (forall sg ac i am pf x, la_campaign ac = k -> merkle_exec E sg (MClaim ac i am pf) w1 <> Ok x) as Hno.
  { intros sg ac i am pf [w3 e3] Heq Hx. rewrite <- Heq in IH2. apply load_campaign_ok in IH2.
    destruct (C33_claim_in_window E sg ac i am pf w1 w3 e3 c HE Hr1 IH2 Hx) as [_ Hwin].
    specialize (Hexp _ _ Hrun). unfold expired in Hexp. lia. }
  destruct Hch as [(sg & ix & -> & Hsg & Hx & Hclk & Hch)|(_ & -> & Hcl & _)].
  - split.
    + destruct (merkle_claims _ _ _ _ _ _ Hx) as [(ac & i & am & pf & tr' & m & c3 & vt & dt & fee & -> & F & Hcl)|[_ Hcl]]; rewrite Hcl; [|reflexivity].
      destruct (Z.eqb_spec (la_campaign ac) k) as [Heq|]; [|reflexivity]. exfalso. exact (Hno _ _ _ _ _ _ Heq Hx).
    + apply load_campaign_ok. destruct Hch as [ix' Hp Hn1 Hn2|ac i am pf tr' mt vt dt fee Hk F Hp|ac am mt vt dt Hk F Hp]; [exact Hk'| |exact Hk'].
      exfalso. exact (Hno _ _ _ _ _ _ Hk Hx).
  - split; [exact Hcl|apply load_campaign_ok; exact Hk'].
Qed.

(** ** The periods of the clawback *)
(** Once the seven days after the first claim are over, the creator gets nothing back until the expiration; from then on the
    clawback is allowed for ever. *)
Theorem C86_clawback_periods : forall E w w' k c, env_ok E -> reachable_fwd E w -> later_fwd E w w' -> campaign_view k w = Ok c ->
  exists c', campaign_view k w' = Ok c' /\
    (grace_over c (get_current_time w) -> grace_over c' (get_current_time w') /\
       (clawback_allowed c' (get_current_time w') <-> expired c' (get_current_time w'))) /\
    (expired c (get_current_time w) -> expired c' (get_current_time w') /\ clawback_allowed c' (get_current_time w')) /\
    (forall sg a amount w2 evs, signers_ok E sg -> ba_campaign a = k -> grace_over c (get_current_time w) ->
       merkle_exec E sg (MClawback a amount) w' = Ok (w2, evs) -> expired c' (get_current_time w')).
Proof.
  intros E w w' k c HE Hrf Hl Hc. pose proof (fwd_reachable _ _ Hrf) as Hr. pose proof (later_fwd_later _ _ _ Hl) as Hl'.
  pose proof (later_fwd_clock _ _ _ HE Hl) as Hclk.
  assert (get_current_time w <= get_current_time w') as Hnow by (rewrite !now_clock; lia).
  destruct (C43_terms E w w' k c HE Hr Hl' Hc) as (c' & Hc' & T). destruct T as (_ & _ & _ & T4 & T5 & _).
  assert (grace_over c (get_current_time w) -> grace_over c' (get_current_time w')) as HG.
  { intros [G1 G2]. destruct (C39_fixed E w w' k c HE Hr Hl' Hc G1) as (c2 & Hc2 & Hf). assert (c2 = c') as -> by congruence.
    unfold grace_over. rewrite Hf. clear - G1 G2 Hnow. lia. }
  assert (grace_over c (get_current_time w) -> clawback_allowed c' (get_current_time w') -> expired c' (get_current_time w')) as HA.
  { intros G. apply HG in G. unfold grace_over in G. unfold clawback_allowed. clear - G. intros [H|[H|H]]; [lia|lia|exact H]. }
  exists c'. split; [exact Hc'|]. split_and!.
  - intros G. split; [exact (HG G)|]. split; [exact (HA G)|]. intros H. right. right. exact H.
  - intros X. assert (expired c' (get_current_time w')) as X' by (unfold expired in *; rewrite T5; clear - X Hnow; lia).
    split; [exact X'|]. right. right. exact X'.
  - intros sg a amount w2 evs Hsg <- G Hx.
    destruct (C40_clawback_only E sg a amount w' w2 evs HE (reachable_later _ _ _ Hr Hl') Hsg Hx) as (c2 & Hc2 & _ & Hal & _).
    assert (c2 = c') as -> by congruence. exact (HA G Hal).
Qed.

(** ** Non-vacuity *)
(** A campaign created at 1700 that starts at 5000: nothing is claimed yet, and a claim fails. *)
Definition script_early : list cmd :=
  [CM [kSender] (MCreateCampaign (camp_accs 5000 9000) (camp_args 5000 9000)); CGive (kCampVault 5000 9000) 1000; CT 4999].
Definition w_early : world := lit
  (ltac:(let x := eval vm_compute in (lam_of (script E0 script_early w5)) in exact x))
  (ltac:(let x := eval vm_compute in (dat_of (script E0 script_early w5)) in exact x))
  (ltac:(let x := eval vm_compute in (wclock (script E0 script_early w5)) in exact x)).
Definition tr_early : trace := Eval vm_compute in script_trace E0 script_early w5.
Lemma w_early_stage : stage E0 script_early w5 tr_early w_early.
Proof. apply stage_intro. vm_compute. reflexivity. Qed.
Lemma w_early_hist : history E0 forward_clock (tr5 ++ tr_early) w_early.
Proof. exact (history_stage _ _ _ _ _ w5_hist w_early_stage). Qed.
(** At 5000 it is claimed, at 9000 it is over. *)
Definition script_open : list cmd :=
  [CT 5000; CM [kOther] (MClaim (claim_by kOther 5000 9000 0 kRecipient) 0 500 [leafB; leafC]); CT 9000].
Definition w_over : world := lit
  (ltac:(let x := eval vm_compute in (lam_of (script E0 script_open w_early)) in exact x))
  (ltac:(let x := eval vm_compute in (dat_of (script E0 script_open w_early)) in exact x))
  (ltac:(let x := eval vm_compute in (wclock (script E0 script_open w_early)) in exact x)).
Definition tr_open : trace := Eval vm_compute in script_trace E0 script_open w_early.
Lemma w_over_stage : stage E0 script_open w_early tr_open w_over.
Proof. apply stage_intro. vm_compute. reflexivity. Qed.
Lemma w_over_hist : history E0 forward_clock ((tr5 ++ tr_early) ++ tr_open) w_over.
Proof. exact (history_stage _ _ _ _ _ w_early_hist w_over_stage). Qed.
Lemma w_early_fwd : reachable_fwd E0 w_early.
Proof. apply (history_fwd _ _ _ w_early_hist). vm_compute. reflexivity. Qed.
Lemma w_over_fwd : reachable_fwd E0 w_over.
Proof. apply (history_fwd _ _ _ w_over_hist). vm_compute. reflexivity. Qed.
Definition camp_over : campaign := match campaign_view (kCampaign 5000 9000) w_over with Ok c => c | _ => camp6 end.
Example C86_example :
  (has_campaign_started_view (kCampaign 5000 9000) w_early = Ok false /\
   is_ok (merkle_exec E0 [kOther] (MClaim (claim_by kOther 5000 9000 0 kRecipient) 0 500 [leafB; leafC]) w_early) = false) /\
  (has_campaign_started_view (kCampaign 5000 9000) w_over = Ok true /\ has_expired_view (kCampaign 5000 9000) w_over = Ok true /\
   has_claimed E0 (kCampaign 5000 9000) (kReceipt 5000 9000 0) 0 w_over = Ok true /\
   claims_of (kCampaign 5000 9000) (events tr_open) = [Entry 0 kRecipient 500]) /\
  (campaign_view (kCampaign 5000 9000) w_over = Ok camp_over /\ expired camp_over (get_current_time w_over) /\
   is_ok (merkle_exec E0 [kOther] (MClaim (claim_by kOther 5000 9000 2 kCollector) 2 200 [nodeAB]) w_over) = false /\
   is_ok (merkle_exec E0 [kSender] (MClawback (clawback_to 5000 9000 kSender) 500) w_over) = true) /\
  grace_over camp6 (get_current_time w7).
Proof.
  split_and!; try (vm_compute; reflexivity); vm_compute.
  - split; discriminate.
  - split; [discriminate|reflexivity].
Qed.

Print Assumptions C86_views_never_go_back.
Print Assumptions C86_nothing_before_start.
Print Assumptions C86_nothing_after_expiry.
Print Assumptions C86_clawback_periods.
