(** Exactly these calls succeed: the conditions under which the instructions succeed are also necessary. *)
From Verif Require Import PropLive PropClaim PropClawback PropCreateLive PropBorsh PropFees PropInit PropMisc PayExact ToyRun Lockup.
Local Opaque find_program_address ata_address create_program_address nft_name.

(** Money and room are no obstacle: [dest] has room for [amount] more and [payer] can pay [extra], and the rent of [dest]
    if it has to be made. *)
Definition affordable (E : env) (w : world) (payer dest mintk : key) (tp : tprog) (amount extra : Z) : Prop :=
  match wdat w !! dest with
  | Some _ => balance w dest + amount <= U64_MAX /\ can_pay w payer extra
  | None => 0 <= lam w dest /\ can_pay w payer (ata_rent E mintk tp + extra)
  end.

(** ** What the transfer at the end of a payout needs *)
Definition token_or_mint (d : adata) : Prop := (exists t, d = DToken t) \/ (exists m, d = DMint m).
Definition keeps (w w' : world) : Prop :=
  wclock w' = wclock w /\ forall k d, wdat w !! k = Some d -> token_or_mint d -> wdat w' !! k = Some d.
Lemma keeps_trans w1 w2 w3 : keeps w1 w2 -> keeps w2 w3 -> keeps w1 w3.
Proof. intros [C1 K1] [C2 K2]. split; [congruence|]. intros k d H1 H2. apply K2; [|exact H2]. by apply K1. Qed.
Lemma keeps_ata E p k o m tp w w' : init_ata_if_needed E p k o m tp w = Ok w' -> keeps w w'.
Proof.
  intros H. apply init_ata_if_needed_ok in H as (_ & t & _ & _ & _ & Hc & [A B _ _]). split; [exact B|].
  intros k1 d Hk Hd. rewrite A, lookup_ins. case_decide as He; [|exact Hk]. subst k1. destruct Hc as [(Hn & _)|(Hs & _)]; congruence.
Qed.
Lemma keeps_init E p k sp d w w' : init_account E p k sp d w = Ok w' -> keeps w w'.
Proof.
  intros H. apply init_account_ok in H as (Hn & _ & [A B _ _] & _). split; [exact B|].
  intros k1 d1 Hk Hd. rewrite A, lookup_ins. case_decide as He; [|exact Hk]. congruence.
Qed.
Lemma keeps_own w w1 own d0 newd : wdat w !! own = Some d0 -> (token_or_mint d0 -> False) -> keeps w w1 -> keeps w (set_dat own newd w1).
Proof.
  intros Ho Hn [C K]. split; [by rewrite wclock_set_dat|]. intros k d Hk Hd. rewrite wdat_set_dat, lookup_ins.
  case_decide as He; [|by apply K]. subst k. rewrite Ho in Hk. injection Hk as ->. by destruct (Hn Hd).
Qed.
Lemma keeps_lam w w1 w2 : keeps w w1 -> lam_step w1 w2 -> keeps w w2.
Proof. intros [C K] [A B _ _]. split; [congruence|]. intros k d Hk Hd. rewrite A. by apply K. Qed.

Lemma transfer_needs E tp from to auth sgn mintk amount dec w w2 w' tf m :
  keeps w w2 -> wdat w !! from = Some (DToken tf) -> wdat w !! mintk = Some (DMint m) ->
  transfer_checked E tp from to auth sgn mintk amount dec w2 = Ok w' ->
  t_frozen tf = false /\ (forall t, wdat w !! to = Some (DToken t) -> t_frozen t = false) /\
  token_allows E w mintk from to amount /\ m_prog m = tp.
Proof.
  intros [C K] Hf Hm Ht.
  assert (token_allows E w mintk from to amount) as Hal.
  { unfold token_allows. rewrite <- C. unfold transfer_checked in Ht. inv_all Ht.
    match goal with H : of_option _ _ = Ok _ |- _ => rename H into Ho end.
    destruct (withheld E mintk from to (wclock w2) amount); [discriminate|discriminate Ho]. }
  apply transfer_checked_ok in Ht as (tf' & td & m' & Hf' & Hd' & Hm' & _ & _ & Hmp & _ & _ & F1 & F2 & _).
  rewrite (K _ _ Hf ltac:(left; by eexists)) in Hf'. injection Hf' as <-.
  rewrite (K _ _ Hm ltac:(right; by eexists)) in Hm'. injection Hm' as <-.
  split; [exact F1|]. split; [|split; [exact Hal|exact Hmp]].
  intros t Ht. rewrite (K _ _ Ht ltac:(left; by eexists)) in Hd'. by injection Hd' as <-.
Qed.

(** From the facts of a payout, and what its transfer needs, the destination can receive. *)
Lemma receivable E w D own newd vault dest vt dt amount tp mintk owner auth w' payer extra :
  payout_facts E w D own newd vault dest vt dt amount tp mintk owner auth w' ->
  (forall t, wdat w !! dest = Some (DToken t) -> t_frozen t = false) ->
  affordable E w payer dest mintk tp amount extra -> (wdat w !! dest = None -> payer <> dest) ->
  can_receive E w payer dest owner mintk tp amount extra.
Proof.
  intros F Hfr Haf Hne. destruct F. split; [exact pf_dest_addr|]. unfold affordable in Haf.
  destruct pf_dest as [Hd|[Hd _]]; rewrite Hd in Haf.
  - left. exists dt. unfold balance in Haf. rewrite Hd in Haf. destruct Haf as [Hr Hc]. split_and!; try done. by apply Hfr.
  - right. destruct Haf as [Hl Hc]. split_and!; try done. by apply Hne.
Qed.
Lemma ata_not_payer E p k o m tp w w' : init_ata_if_needed E p k o m tp w = Ok w' -> wdat w !! k = None -> p <> k.
Proof. intros H Hn. apply init_ata_if_needed_ok in H as (_ & t & _ & _ & _ & [(_ & Hp & _)|(Hs & _)] & _); [exact Hp|congruence]. Qed.

(** ** Inversions once more, keeping what the transfer needed *)
Record passes (E : env) (w : world) (payer from to mintk : key) (tp : tprog) (amount : Z) : Prop := {
  ps_from : frozen w from = false;
  ps_to : forall t, wdat w !! to = Some (DToken t) -> t_frozen t = false;
  ps_allows : token_allows E w mintk from to amount;
  ps_mint : exists m, wdat w !! mintk = Some (DMint m) /\ m_prog m = tp;
  ps_payer : wdat w !! to = None -> payer <> to }.
Lemma passes_ok E tp from to auth sgn mintk amount dec w w2 w' w1 payer owner tf m :
  keeps w w2 -> wdat w !! from = Some (DToken tf) -> wdat w !! mintk = Some (DMint m) ->
  init_ata_if_needed E payer to owner mintk tp w = Ok w1 ->
  transfer_checked E tp from to auth sgn mintk amount dec w2 = Ok w' -> passes E w payer from to mintk tp amount.
Proof.
  intros K Hf Hm Hi Ht. destruct (transfer_needs _ _ _ _ _ _ _ _ _ _ _ _ _ _ K Hf Hm Ht) as (F1 & F2 & Ha & Hp).
  split; [unfold frozen; by rewrite Hf|exact F2|exact Ha|by exists m|]. exact (ata_not_payer _ _ _ _ _ _ _ _ Hi).
Qed.
Lemma no_token_or_mint d : (forall t, d <> DToken t) -> (forall m, d <> DMint m) -> token_or_mint d -> False.
Proof. intros H1 H2 [[t Ht]|[m Hm]]; [by apply (H1 t)|by apply (H2 m)]. Qed.

Lemma cancel_needs E sg a w w' evs : Lockup.cancel E sg a w = Ok (w', evs) ->
  exists q amount, evs = [EvCancel (xa_mint a) q amount (xa_stream a) (xa_nft_mint a)] /\
    passes E w (xa_sender a) (xa_vault a) (xa_sender_ata a) (xa_mint a) (xa_tp a) amount.
Proof.
  unfold Lockup.cancel. intros H. inv_all H. loads. injection H as <- <-. eexists _, _. split; [reflexivity|].
  eapply passes_ok; [|eassumption|eassumption|eassumption|eassumption].
  eapply keeps_own; [eassumption|apply no_token_or_mint; intros ? ?; discriminate|]. eapply keeps_ata; eassumption.
Qed.
Lemma withdraw_needs E sg a amount w w' evs : withdraw E sg a amount w = Ok (w', evs) ->
  passes E w (wa_signer a) (wa_vault a) (wa_dest a) (wa_mint a) (wa_tp a) amount.
Proof.
  unfold withdraw. intros H. inv_all H. destruct x as [[w1 s] m].
  apply withdraw_accounts_inv in He as (tr & nt & vt & ? & ? & ? & Hm & ? & ? & ? & ? & ? & ? & ? & ? & Hst & ? & Hv & ? & ? & ? & ? & Hi).
  unfold withdraw_handler in H. inv_all H. destruct x2 as [w2 fee]. inv_all H. injection H as <- <-.
  apply charge_fee_ok in He2 as (Hls & _ & _).
  eapply passes_ok; [|exact Hv|exact Hm|exact Hi|eassumption].
  eapply keeps_lam; [|exact Hls]. eapply keeps_own; [exact Hst|apply no_token_or_mint; intros ? ?; discriminate|]. eapply keeps_ata; exact Hi.
Qed.
Lemma clawback_needs E sg a amount w w' evs : clawback E sg a amount w = Ok (w', evs) ->
  passes E w (ba_creator a) (ba_vault a) (ba_recipient_ata a) (ba_mint a) (ba_tp a) amount.
Proof.
  unfold clawback. intros H. inv_all H. loads. injection H as <- <-.
  eapply passes_ok; [|eassumption|eassumption|eassumption|eassumption]. eapply keeps_ata; eassumption.
Qed.
Lemma claim_needs E sg a index amount proof w w' evs : claim E sg a index amount proof w = Ok (w', evs) ->
  passes E w (la_claimer a) (la_vault a) (la_recipient_ata a) (la_mint a) (la_tp a) amount.
Proof.
  unfold claim. intros H. inv_all H. match goal with p : (world * Z)%type |- _ => destruct p as [w3 fee] end. inv_all H. loads. injection H as <- <-.
  match goal with Hf : charge_fee _ _ _ _ _ _ = Ok _ |- _ => apply charge_fee_ok in Hf as (Hls & _ & _) end.
  eapply passes_ok; [|eassumption|eassumption|eassumption|eassumption].
  eapply keeps_lam; [|exact Hls]. eapply keeps_own; [eassumption|apply no_token_or_mint; intros ? ?; discriminate|].
  eapply keeps_trans; [eapply keeps_ata; eassumption|]. eapply keeps_init; eassumption.
Qed.

(** ** C81 *)

(** Renounce: the stream's sender signs, the stream is cancelable and something is still to be streamed. *)
Theorem C81_renounce : forall E w sg a s x, env_ok E -> reachable_fwd E w ->
  stream_at E w (ra_stream a) (ra_nft_mint a) s -> streamed_amount_of E (ra_stream a) (ra_nft_mint a) w = Ok x ->
  ((exists w' evs, lockup_exec E sg (LRenounce a) w = Ok (w', evs)) <->
   lockup_ix_ok (LRenounce a) = true /\ ra_sender a ∈ sg /\ ra_sender a = s_sender s /\
   s_cancelable s = true /\ x < deposited (s_amounts s)).
Proof.
  intros E w sg a s x HE Hr Hs Hx. split.
  - intros (w' & evs & He). pose proof (lockup_exec_effect _ _ _ _ _ _ He) as [Hix _].
    apply exec_renounce_inv in He as (s1 & st & H1 & H2 & H3 & (nm & H4) & H5 & H6 & H7 & H8 & _).
    rewrite (proj1 Hs) in H3. injection H3 as <-.
    assert (st = x) as ->; [|split_and!; done].
    pose proof (view_at _ _ _ _ _ (reachable_inv _ _ HE (fwd_reachable _ _ Hr)) Hs) as Hv.
    unfold streamed_amount_of in Hx. rewrite Hv in Hx. cbn [rbind] in Hx. rewrite H6 in Hx. by injection Hx.
  - intros (Hix & Hsg & Hse & Hc & Hlt). exact (C20_renounce_succeeds E w sg a s x HE Hr Hs Hx Hc Hlt Hix Hsg Hse).
Qed.

Theorem C81_cancel : forall E w sg a s r, env_ok E -> reachable_fwd E w ->
  stream_at E w (xa_stream a) (xa_nft_mint a) s -> refundable_amount_of E (xa_stream a) (xa_nft_mint a) w = Ok r ->
  affordable E w (xa_sender a) (xa_sender_ata a) (xa_mint a) (xa_tp a) r 0 ->
  deposited (s_amounts s) - withdrawn (s_amounts s) - refunded (s_amounts s) <= balance w (xa_vault a) ->
  ((exists w' evs, lockup_exec E sg (LCancel a) w = Ok (w', evs)) <-> 0 < r /\ cancel_ready E w sg a s r).
Proof.
  intros E w sg a s r HE Hr Hs Hre Haf Hva. split.
  - intros (w' & evs & He). pose proof (lockup_exec_effect _ _ _ _ _ _ He) as [Hix _].
    destruct (C18_refundable_is_refund _ _ _ _ _ _ HE (fwd_reachable _ _ Hr) He) as (r' & q & Hr1 & Hpos & _ & Hev & _).
    rewrite Hre in Hr1. injection Hr1 as <-. split; [exact Hpos|].
    pose proof (exec_cancel_inv _ _ _ _ _ _ He) as (m & s1 & vt & dt & st & F).
    unfold lockup_exec in He. rewrite Hix in He. cbn [ensure rbind] in He.
    destruct (cancel_needs _ _ _ _ _ _ He) as (q' & am & Hev' & P). rewrite Hev in Hev'. injection Hev' as _ <-.
    pose proof (cf_pay _ _ _ _ _ _ _ _ _ _ _ F) as Fp. destruct F. rewrite (proj1 Hs) in cf_stream. injection cf_stream as <-. destruct P.
    assert (deposited (s_amounts s) - st = r) as Hst by (rewrite Hev in cf_evs; injection cf_evs; intros; congruence). rewrite Hst in Fp.
    split; [done|done|done|done|split; [done|exact ps_mint0]| | |done].
    + split; [|split; [done|split; [|exact Hva]]].
      * exists vt. rewrite (pf_vault_prog _ _ _ _ _ _ _ _ _ _ _ _ _ _ _ Fp). split_and!; [done|exact (pf_vault_owner _ _ _ _ _ _ _ _ _ _ _ _ _ _ _ Fp)| |by rewrite <- cf_mint_addr].
        rewrite <- cf_mint_addr. exact (pf_vault_mint _ _ _ _ _ _ _ _ _ _ _ _ _ _ _ Fp).
      * exists vt. split; [done|exact (pf_vault_prog _ _ _ _ _ _ _ _ _ _ _ _ _ _ _ Fp)].
    + exact (receivable _ _ _ _ _ _ _ _ _ _ _ _ _ _ _ _ _ Fp ps_to0 Haf ps_payer0).
  - intros [Hpos R]. exact (proj2 (C18_zero_iff_no_cancel E w _ _ s r HE Hr Hs Hre) Hpos sg a eq_refl eq_refl R).
Qed.

Lemma fee_view_of E a w tr fee : wdat w !! wa_treasury a = Some (DLockupTreasury tr) ->
  create_program_address E PLockup [s_TREASURY] (tr_bump tr) = Some (wa_treasury a) ->
  wa_chainlink a = tr_chainlink_program tr -> wa_feed a = tr_chainlink_feed tr ->
  convert_usd_fee_to_lamports (withdrawal_fee_usd E) (wa_chainlink a) (wa_feed a) w = Ok fee ->
  withdrawal_fee_in_lamports E (wa_treasury a) (wa_chainlink a) (wa_feed a) w = Ok fee.
Proof.
  intros H1 H2 H3 H4 H5. unfold withdrawal_fee_in_lamports.
  rewrite (proj2 (load_lockup_treasury_ok _ _ _) H1). cbn [rbind].
  rewrite (check_seeds_bump_live _ _ _ _ _ H2), (check_address_live _ _ H3), (check_address_live _ _ H4).
  exact H5.
Qed.

Theorem C81_withdraw : forall E w sg a amount s wd, env_ok E -> reachable_fwd E w ->
  stream_at E w (wa_stream a) (wa_nft_mint a) s -> withdrawable_amount_of E (wa_stream a) (wa_nft_mint a) w = Ok wd ->
  (forall fee, withdrawal_fee_in_lamports E (wa_treasury a) (wa_chainlink a) (wa_feed a) w = Ok fee ->
     affordable E w (wa_signer a) (wa_dest a) (wa_mint a) (wa_tp a) amount fee) ->
  deposited (s_amounts s) - withdrawn (s_amounts s) - refunded (s_amounts s) <= balance w (wa_vault a) ->
  ((exists w' evs, lockup_exec E sg (LWithdraw a amount) w = Ok (w', evs)) <->
   1 <= amount <= wd /\ exists fee, withdraw_ready E w sg a amount fee s).
Proof.
  intros E w sg a amount s wd HE Hr Hs Hwd Haf Hva. split.
  - intros (w' & evs & He). pose proof (lockup_exec_effect _ _ _ _ _ _ He) as [Hix _].
    pose proof (exec_withdraw_inv _ _ _ _ _ _ _ He) as (Hpos & Hacc & tr & m & nt & s1 & s' & vt & dt & fee & wd' & F).
    unfold lockup_exec in He. rewrite Hix in He. cbn [ensure rbind] in He.
    pose proof (withdraw_needs _ _ _ _ _ _ _ He) as P. pose proof (withdraw_stream_view _ _ _ _ _ _ _ _ _ _ _ _ _ _ _ _ F) as Hv.
    pose proof (wf_pay _ _ _ _ _ _ _ _ _ _ _ _ _ _ _ _ F) as Fp. destruct F.
    unfold withdrawable_amount_of in Hwd. rewrite Hv in Hwd. cbn [rbind] in Hwd. rewrite wf_wd in Hwd. injection Hwd as ->.
    rewrite (proj1 Hs) in wf_stream. injection wf_stream as <-. destruct P. split; [lia|]. exists fee.
    assert (withdrawal_fee_in_lamports E (wa_treasury a) (wa_chainlink a) (wa_feed a) w = Ok fee) as Hfee.
    { destruct wf_oracle as [O1 O2]. exact (fee_view_of _ _ _ _ _ wf_treasury wf_treasury_addr O1 O2 wf_fee). }
    split; [done|exact Hacc|done| |done|split; [done|exact ps_mint0]| |exact Hfee| |done].
    + split; [exact wf_nft_addr|]. exists nt. split_and!; done.
    + split; [|split; [done|split; [|exact Hva]]].
      * exists vt. rewrite (pf_vault_prog _ _ _ _ _ _ _ _ _ _ _ _ _ _ _ Fp). split_and!; [done|exact (pf_vault_owner _ _ _ _ _ _ _ _ _ _ _ _ _ _ _ Fp)| |by rewrite <- wf_mint_addr].
        rewrite <- wf_mint_addr. exact (pf_vault_mint _ _ _ _ _ _ _ _ _ _ _ _ _ _ _ Fp).
      * exists vt. split; [done|exact (pf_vault_prog _ _ _ _ _ _ _ _ _ _ _ _ _ _ _ Fp)].
    + exact (receivable _ _ _ _ _ _ _ _ _ _ _ _ _ _ _ _ _ Fp ps_to0 (Haf _ Hfee) ps_payer0).
  - intros [Ham [fee R]]. exact (C19_withdraw_succeeds E w sg a amount fee s wd HE Hr R Hwd Ham).
Qed.

(** withdraw_max: exactly when withdraw of everything withdrawable succeeds. *)
Theorem C81_withdraw_max : forall E w sg a s wd, env_ok E -> reachable_fwd E w ->
  stream_at E w (wa_stream a) (wa_nft_mint a) s -> withdrawable_amount_of E (wa_stream a) (wa_nft_mint a) w = Ok wd ->
  (forall fee, withdrawal_fee_in_lamports E (wa_treasury a) (wa_chainlink a) (wa_feed a) w = Ok fee ->
     affordable E w (wa_signer a) (wa_dest a) (wa_mint a) (wa_tp a) wd fee) ->
  deposited (s_amounts s) - withdrawn (s_amounts s) - refunded (s_amounts s) <= balance w (wa_vault a) ->
  ((exists w' evs, lockup_exec E sg (LWithdrawMax a) w = Ok (w', evs)) <->
   1 <= wd /\ exists fee, withdraw_ready E w sg a wd fee s).
Proof.
  intros E w sg a s wd HE Hr Hs Hwd Haf Hva.
  rewrite (C11_withdraw_max_is_withdraw E sg a w wd HE (fwd_reachable _ _ Hr) Hwd).
  rewrite (C81_withdraw E w sg a wd s wd HE Hr Hs Hwd Haf Hva). split; (intros [H1 H2]; split; [lia|exact H2]).
Qed.

Theorem C81_clawback : forall E w sg a amount c, env_ok E -> reachable_fwd E w -> wclock w <= I64_LAST ->
  campaign_view (ba_campaign a) w = Ok c ->
  affordable E w (ba_creator a) (ba_recipient_ata a) (ba_mint a) (ba_tp a) amount 0 ->
  ((exists w' evs, merkle_exec E sg (MClawback a amount) w = Ok (w', evs)) <->
   clawback_allowed c (get_current_time w) /\ clawback_ready E w sg a amount c).
Proof.
  intros E w sg a amount c HE Hr Hclk Hc Haf. split.
  - intros (w' & evs & He). pose proof (reachable_inv _ _ HE (fwd_reachable _ _ Hr)) as Hi.
    pose proof (exec_clawback_inv _ _ _ _ _ _ _ He) as (Hix & m & c1 & vt & dt & F).
    unfold merkle_exec in He. rewrite Hix in He. cbn [ensure rbind] in He.
    pose proof (clawback_needs _ _ _ _ _ _ _ He) as P. pose proof (bf_pay _ _ _ _ _ _ _ _ _ _ _ F) as Fp. destruct F, P.
    pose proof Hc as Hc'. apply load_campaign_ok in Hc'. rewrite Hc' in bf_campaign. injection bf_campaign as <-.
    pose proof (ci_ok _ _ _ _ (mi_campaign _ _ (inv_merkle _ _ Hi) _ _ Hc')) as Hok.
    split; [|split; [done|exact Hc|exact Hix|split; [done|exact ps_mint0]| | |done]].
    + refine (check_clawback_iff _ _ _ _ bf_allowed); apply Hok.
    + split; [done|]. exists vt. split_and!; [done|exact (pf_vault_owner _ _ _ _ _ _ _ _ _ _ _ _ _ _ _ Fp)| |exact (pf_vault_prog _ _ _ _ _ _ _ _ _ _ _ _ _ _ _ Fp)| |exact (pf_amount _ _ _ _ _ _ _ _ _ _ _ _ _ _ _ Fp)].
      * rewrite <- bf_mint_addr. exact (pf_vault_mint _ _ _ _ _ _ _ _ _ _ _ _ _ _ _ Fp).
      * unfold frozen in ps_from0. by rewrite bf_vault in ps_from0.
    + exact (receivable _ _ _ _ _ _ _ _ _ _ _ _ _ _ _ _ _ Fp ps_to0 Haf ps_payer0).
  - intros [Hal R]. destruct (C40_clawback_succeeds E w sg a amount c HE Hr Hclk R Hal) as [w' H]. by eexists _, _.
Qed.

(** A claim: of an entry [Entry index recipient amount] whose proof leads to the root. *)
Theorem C81_claim : forall E w sg a index amount proof c, env_ok E -> reachable E w -> signers_ok E sg ->
  campaign_view (la_campaign a) w = Ok c -> 0 <= lam w (la_receipt a) ->
  (forall fee, claim_fee_in_lamports E (la_treasury a) (la_chainlink a) (la_feed a) w = Ok fee ->
     affordable E w (la_claimer a) (la_recipient_ata a) (la_mint a) (la_tp a) amount (Z.max 1 (rent_min E 8) + fee)) ->
  ((exists w' evs, merkle_exec E sg (MClaim a index amount proof) w = Ok (w', evs)) <->
   merkle_ix_ok (MClaim a index amount proof) = true /\
   merkle_loop E (leaf_hash E index (la_recipient a) amount) proof = c_root c /\
   exists fee, claim_ready E w sg a (Entry index (la_recipient a) amount) fee c).
Proof.
  intros E w sg a index amount proof c HE Hr Hsg Hc Hlam Haf. pose proof (reachable_inv _ _ HE Hr) as Hi.
  pose proof Hc as Hc'. apply load_campaign_ok in Hc'. split.
  - intros (w' & evs & He). pose proof (exec_claim_inv _ _ _ _ _ _ _ _ _ He) as (Hix & tr & m & c1 & vt & dt & fee & F).
    unfold merkle_exec in He. rewrite Hix in He. cbn [ensure rbind] in He.
    pose proof (claim_needs _ _ _ _ _ _ _ _ _ He) as P. pose proof (lf_pay _ _ _ _ _ _ _ _ _ _ _ _ _ _ _ F) as Fp. destruct F, P.
    rewrite Hc' in lf_campaign. injection lf_campaign as <-. split; [exact Hix|]. split; [exact lf_proof|]. exists fee.
    assert (claim_fee_in_lamports E (la_treasury a) (la_chainlink a) (la_feed a) w = Ok fee) as Hfee.
    { apply claim_fee_view_inv. exists tr. destruct lf_oracle as [O1 O2]. split; [apply merkle_treasury_view_inv; split; assumption|].
      split; [exact O1|split; [exact O2|exact lf_fee]]. }
    split; cbn [e_index e_recipient e_amount].
    + exact lf_signer.
    + exact Hc.
    + apply (window_expired E w (la_campaign a) c Hi Hc'). split; [exact lf_started|exact lf_not_expired].
    + reflexivity.
    + apply has_claimed_inv. split; [by exists c|]. split; [exact lf_receipt_addr|]. split; [discriminate 1|intros Hn; by destruct (Hn lf_receipt)].
    + split; [exact lf_mint_addr|exact ps_mint0].
    + split; [exact lf_vault_addr|]. exists vt.
      split_and!; [exact lf_vault|exact (pf_vault_owner _ _ _ _ _ _ _ _ _ _ _ _ _ _ _ Fp)| |exact (pf_vault_prog _ _ _ _ _ _ _ _ _ _ _ _ _ _ _ Fp)| |exact (pf_amount _ _ _ _ _ _ _ _ _ _ _ _ _ _ _ Fp)].
      * rewrite <- lf_mint_addr. exact (pf_vault_mint _ _ _ _ _ _ _ _ _ _ _ _ _ _ _ Fp).
      * unfold frozen in ps_from0. by rewrite lf_vault in ps_from0.
    + exact Hfee.
    + exact Hlam.
    + exact (receivable _ _ _ _ _ _ _ _ _ _ _ _ _ _ _ _ _ Fp ps_to0 (Haf _ Hfee) ps_payer0).
    + exact ps_allows0.
  - intros (Hix & Hroot & fee & R).
    assert (forallb is_key [la_claimer a; la_recipient a; la_recipient_ata a; la_treasury a; la_mint a;
        la_campaign a; la_vault a; la_receipt a; la_chainlink a; la_feed a] = true /\ is_u32 index = true /\ is_u64 amount = true /\ forallb is_hash proof = true) as (K1 & K2 & K3 & K4).
    { clear - Hix. unfold merkle_ix_ok in Hix. rewrite !andb_true_iff in Hix. tauto. }
    assert (entry_ok (Entry index (la_recipient a) amount)) as Hen.
    { split; cbn [e_index e_recipient e_amount]; [clear - K2; unfold is_u32 in K2; lia|]. split; [|clear - K3; unfold is_u64 in K3; lia].
      clear - K1. cbn [forallb] in K1. rewrite !andb_true_iff in K1. destruct K1 as (_ & K1 & _). by apply is_key_ok in K1. }
    destruct (claim_live E w sg a _ fee c proof HE Hi Hsg Hen K1 K4 Hroot R) as [w' H]. by eexists _, _.
Qed.

(** ** Creation *)
Lemma keeps_refl w : keeps w w.
Proof. split; done. Qed.
Lemma keeps_step w w1 w2 k d : keeps w w1 -> data_step w1 w2 (<[k:=d]> (wdat w1)) ->
  (wdat w !! k = None \/ wdat w1 !! k = None \/ exists d0, wdat w1 !! k = Some d0 /\ (token_or_mint d0 -> False)) -> keeps w w2.
Proof.
  intros [C K] [A B _ _] Hk. split; [congruence|]. intros k1 d1 H1 H2. rewrite A, lookup_ins. case_decide as He; [|by apply K].
  subst k1. pose proof (K _ _ H1 H2) as H3. destruct Hk as [Hn|[Hn|(d0 & H0 & Hno)]]; [congruence|congruence|].
  rewrite H3 in H0. injection H0 as ->. by destruct (Hno H2).
Qed.
Lemma keeps_set w w1 k d : keeps w w1 ->
  (wdat w !! k = None \/ wdat w1 !! k = None \/ exists d0, wdat w1 !! k = Some d0 /\ (token_or_mint d0 -> False)) -> keeps w (set_dat k d w1).
Proof.
  intros K Hk. eapply keeps_step; [exact K| |exact Hk]. split; [by rewrite wdat_set_dat|by rewrite wclock_set_dat|by rewrite lam_total_set_dat|].
  intros. by rewrite lam_set_dat.
Qed.

Lemma create_needs E sg a p w w' evs : create_with_timestamps E sg a p w = Ok (w', evs) ->
  frozen w (ca_creator_ata a) = false /\ token_allows E w (ca_deposit_mint a) (ca_creator_ata a) (ca_vault a) (p_deposit p) /\
  ca_creator a ∉ new_accounts a.
Proof.
  unfold create_with_timestamps. intros H. inv_all H. destruct x as [[[[w1 sb] mb] nc] dm].
  apply create_accounts_inv in He as (ct & cm & ? & Hct & ? & ? & ? & Hnc & ? & Hcm & ? & Hdm & ? & ? & ? & ? & ? &
    Hf1 & Hf2 & Hf3 & Hf4 & Hnd & M1 & M2 & M3 & M4 & [A1 B1 _ _]).
  unfold create_handler in H. inv_all H. loads. injection H as <- <-. subst.
  match goal with X : nft_create_stream _ _ _ _ = Ok _ |- _ => rename X into Hnft end.
  unfold nft_create_stream in Hnft. inv_all Hnft.
  match goal with X : mint_to _ _ _ _ _ _ _ = Ok _ |- _ => apply mint_to_ok in X as (m1 & t1 & _ & _ & _ & _ & _ & _ & _ & _ & _ & _ & ->) end.
  match goal with X : create_metadata _ _ _ _ _ _ _ _ _ _ _ = Ok _ |- _ => apply create_metadata_ok in X as (Hfmd & M5 & _ & Hs2) end.
  match goal with X : create_master_edition _ _ _ _ _ _ _ _ = Ok _ |- _ => apply create_master_edition_ok in X as (m2 & _ & Hfed & M6 & _ & _ & _ & Hs3) end.
  match goal with X : set_and_verify_collection _ _ _ _ _ _ _ _ = Ok _ |- _ =>
    apply set_and_verify_collection_ok in X as (mm & ua & nm & sz & sgn & cmm & cua & cnm & ccol & csz & csgn & Hmd1 & Hcmd & _ & _ & _ & ->) end.
  assert (keeps w w1) as K1.
  { split; [exact B1|]. intros k d Hk _. rewrite A1. rewrite !lookup_insert_ne; [exact Hk|intros Hq; rewrite <- Hq in Hk; congruence..]. }
  assert (forall wa k d, keeps w wa -> wdat w !! k = None -> keeps w (set_dat k d wa)) as Kset by (intros wa k d Ka Hk; apply keeps_set; [exact Ka|by left]).
  match type of Hs2 with data_step ?w2 _ _ => assert (keeps w w2) as K2 by (repeat (apply Kset; [|assumption]); exact K1) end.
  match type of Hs3 with data_step ?w3 _ _ => assert (keeps w w3) as K3 by (eapply keeps_step; [exact K2|exact Hs2|right; left; exact Hfmd]) end.
  match type of Hs3 with data_step ?w3 ?w4 _ => assert (keeps w w4) as K4 end.
  { destruct K3 as [C3 K3]. destruct Hs3 as [A3 B3 _ _]. split; [congruence|]. intros k d Hk Hd. rewrite A3.
    rewrite !lookup_insert_ne; [by apply K3|intros Hq; rewrite <- Hq in Hk; pose proof (K3 _ _ Hk Hd); congruence|intros Hq; rewrite <- Hq in Hk; congruence]. }
  match goal with X : transfer_checked _ _ _ _ _ _ _ _ _ ?w5 = Ok _ |- _ => assert (keeps w w5) as K5; [|rename X into Ht] end.
  { eapply keeps_own; [exact Hnc|apply no_token_or_mint; intros ? ?; discriminate|].
    apply keeps_set; [apply keeps_set; [exact K4|]|].
    - right; right. eexists. split; [exact Hmd1|apply no_token_or_mint; intros ? ?; discriminate].
    - right; right. destruct (decide (ca_metadata a = ca_coll_metadata a)) as [Hq|Hq].
      + eexists. split; [rewrite wdat_set_dat, Hq, lookup_insert; reflexivity|apply no_token_or_mint; intros ? ?; discriminate].
      + eexists. split; [rewrite wdat_set_dat, lookup_insert_ne by exact Hq; exact Hcmd|apply no_token_or_mint; intros ? ?; discriminate]. }
  destruct (transfer_needs _ _ _ _ _ _ _ _ _ _ _ _ _ _ K5 Hct Hdm Ht) as (F1 & _ & F3 & _).
  split; [unfold frozen; by rewrite Hct|]. split; [exact F3|]. unfold new_accounts. rewrite !not_elem_of_cons.
  split_and!; [exact M1|exact M2|exact M3|exact M4|exact M5|exact M6|apply not_elem_of_nil].
Qed.

(** The collection of the program, lamports for the new accounts, and nothing owed at their addresses. *)
Record create_affordable (E : env) (w : world) (a : create_accs) : Prop := {
  ka_collection : collection_ready E w a;
  ka_funds : wdat w !! ca_creator a = None /\ create_cost E a <= lam w (ca_creator a);
  ka_lamports : forall k, k ∈ new_accounts a -> 0 <= lam w k }.

Theorem C81_create : forall E w sg a p, env_ok E -> reachable E w -> create_affordable E w a ->
  ((exists w' evs, lockup_exec E sg (LCreateTs a p) w = Ok (w', evs)) <-> create_ready E w sg a p).
Proof.
  intros E w sg a p HE Hr [Hcol Hfu Hlam]. split; [|exact (C47_create_succeeds E w sg a p HE Hr)].
  intros (w' & evs & He). pose proof (C04_accepted_is_valid _ _ _ _ _ _ _ He) as Hterms.
  pose proof (lockup_exec_effect _ _ _ _ _ _ He) as [Hix Heff].
  assert (exists ct nc cm dm sb s name c0 c1, create_facts E sg a p w w' evs ct nc cm dm sb s name c0 c1) as (ct & nc & cm & dm & sb & s & name & c0 & c1 & F).
  { unfold lockup_exec in He. rewrite Hix in He. cbn [ensure rbind] in He. by apply create_ts_inv in He. }
  unfold lockup_exec in He. rewrite Hix in He. cbn [ensure rbind] in He.
  destruct (create_needs _ _ _ _ _ _ _ He) as (Hfr & Hal & Hnew). clear He Heff. destruct F.
  split; try assumption.
  - split; [exact rf_nft_mint_addr|by exists sb|exact rf_nft_ata_addr|exact rf_vault_addr|exact rf_edition_addr|exact rf_metadata_addr].
  - by exists dm.
  - split; [exact rf_creator_ata_addr|]. exists ct. unfold frozen in Hfr. rewrite rf_creator_ata in Hfr. split_and!; assumption.
  - apply NoDup_cons. split; [exact Hnew|exact rf_distinct].
  - intros k Hk. split; [|by apply Hlam]. revert k Hk. unfold new_accounts.
    intros k. rewrite !elem_of_cons. intros [->|[->|[->|[->|[->|[->|Hk]]]]]]; try assumption. by apply elem_of_nil in Hk.
Qed.

(** With durations: they have to fit the clock, and the times they stand for now are the ones that count. *)
Theorem C81_create_durations : forall E w sg a q, env_ok E -> reachable E w -> create_affordable E w a ->
  ((exists w' evs, lockup_exec E sg (LCreateDur a q) w = Ok (w', evs)) <->
   lockup_ix_ok (LCreateDur a q) = true /\ durations_fit q (get_current_time w) /\
   create_ready E w sg a (as_timestamps q (get_current_time w))).
Proof.
  intros E w sg a q HE Hr Haf. split.
  - intros (w' & evs & He). pose proof (lockup_exec_effect _ _ _ _ _ _ He) as [Hix _].
    destruct (C05_durations E sg a q w Hix) as [Hf Hn].
    assert (durations_fit q (get_current_time w)) as Hfit.
    { unfold durations_fit in *. destruct (decide (get_current_time w + q_total_duration q <= U64_MAX)) as [H2|H2].
      - destruct (decide (q_cliff_duration q = 0 \/ get_current_time w + q_cliff_duration q <= U64_MAX)) as [H1|H1]; [split; [tauto|exact H2]|].
        destruct Hn as [e Hx]; [tauto|]. rewrite He in Hx. discriminate Hx.
      - destruct Hn as [e Hx]; [tauto|]. rewrite He in Hx. discriminate Hx. }
    split; [exact Hix|]. split; [exact Hfit|]. apply (C81_create E w sg a _ HE Hr Haf). exists w', evs. by rewrite <- (Hf Hfit).
  - intros (Hix & Hfit & R). exact (C47_create_durations_succeeds E w sg a q HE Hr Hix Hfit R).
Qed.

(** A campaign. *)
Lemma campaign_payer E sg a g w w' evs : create_campaign E sg a g w = Ok (w', evs) ->
  na_creator a <> na_campaign a /\ na_creator a <> na_vault a.
Proof.
  unfold create_campaign. intros H. inv_all H. loads.
  repeat match goal with X : init_account _ _ _ _ _ _ = Ok _ |- _ => apply init_account_ok in X as (_ & ? & _ & _) end.
  match goal with X : create_ata _ _ _ _ _ _ _ = Ok _ |- _ => apply create_ata_ok in X as (_ & _ & ? & _ & _) end.
  split; assumption.
Qed.
Theorem C81_campaign : forall E w sg a g,
  wdat w !! na_creator a = None /\ Z.max 1 (rent_min E CAMPAIGN_SPACE) + ata_rent E (na_mint a) (na_tp a) <= lam w (na_creator a) ->
  0 <= lam w (na_campaign a) -> 0 <= lam w (na_vault a) ->
  ((exists w' evs, merkle_exec E sg (MCreateCampaign a g) w = Ok (w', evs)) <-> campaign_ready E w sg a g).
Proof.
  intros E w sg a g Hfu L1 L2. split; [|exact (C47_campaign_succeeds E w sg a g)].
  intros (w' & evs & He). pose proof (proj1 (proj2 (C45_create_limits _ _ _ _ _ _ _ He))) as Hsz.
  pose proof (merkle_exec_effect _ _ _ _ _ _ He) as [Hix _].
  unfold merkle_exec in He. rewrite Hix in He. cbn [ensure rbind] in He.
  destruct (campaign_payer _ _ _ _ _ _ _ He) as [Q1 Q2].
  apply create_campaign_inv in He as (m & b & Hs & Hm & Hmp & Ha & N1 & N2 & Hne & Hv & _).
  split; try assumption.
  - by exists b.
  - by exists m.
  - rewrite !NoDup_cons, !not_elem_of_cons. split_and!; try (apply not_elem_of_nil); try (by apply NoDup_nil); assumption.
  - split_and!; assumption.
Qed.

(** ** Initialization *)
Lemma initialize_payer E sg a f p c w w' evs : initialize E sg a f p c w = Ok (w', evs) -> ia_initializer a ∉ init_new_accounts a.
Proof.
  unfold initialize. intros H. inv_all H. loads.
  repeat match goal with
  | X : init_account _ _ _ _ _ _ = Ok _ |- _ => apply init_account_ok in X as (_ & ? & _ & _)
  | X : create_mint _ _ _ _ _ _ _ _ = Ok _ |- _ => apply create_mint_ok in X as (_ & ? & _)
  | X : create_ata _ _ _ _ _ _ _ = Ok _ |- _ => apply create_ata_ok in X as (_ & _ & ? & _ & _)
  | X : create_metadata _ _ _ _ _ _ _ _ _ _ _ = Ok _ |- _ => apply create_metadata_ok in X as (_ & ? & _ & _)
  | X : create_master_edition _ _ _ _ _ _ _ _ = Ok _ |- _ => apply create_master_edition_ok in X as (? & _ & _ & ? & _)
  end.
  unfold init_new_accounts. rewrite !not_elem_of_cons. split_and!; try assumption. apply not_elem_of_nil.
Qed.
Theorem C81_initialize : forall E w sg a f p c, env_ok E ->
  (forall k, k ∈ init_new_accounts a -> 0 <= lam w k) ->
  wdat w !! ia_initializer a = None /\ init_cost E a <= lam w (ia_initializer a) ->
  ((exists w' evs, lockup_exec E sg (LInitialize a f p c) w = Ok (w', evs)) <->
   init_ready E w sg a f p c /\ forall k, k ∈ init_new_accounts a -> wdat w !! k = None).
Proof.
  intros E w sg a f p c HE Hlam Hfu. split.
  - intros (w' & evs & He). pose proof (lockup_exec_effect _ _ _ _ _ _ He) as [Hix _].
    unfold lockup_exec in He. rewrite Hix in He. cbn [ensure rbind] in He. pose proof (initialize_payer _ _ _ _ _ _ _ _ _ He) as Hp.
    apply initialize_inv in He as (_ & tb & nb & F). destruct F. rewrite Forall_forall in if_fresh.
    split; [|intros k Hk; by apply if_fresh]. unfold init_new_accounts in if_fresh.
    split; try assumption.
    + by exists tb.
    + by exists nb.
    + apply NoDup_cons. split; [exact Hp|exact if_distinct].
    + intros _. split_and!; apply if_fresh; rewrite !elem_of_cons; tauto.
  - intros [R Hn]. exact (initialize_live E w sg a f p c HE R Hn).
Qed.
Theorem C81_merkle_initialize : forall E w sg i t f p c, 0 <= lam w t ->
  wdat w !! i = None /\ Z.max 1 (rent_min E TREASURY_SPACE) <= lam w i ->
  ((exists w' evs, merkle_exec E sg (MInitialize i t f p c) w = Ok (w', evs)) <-> m_init_ready E w sg i t f p c).
Proof.
  intros E w sg i t f p c Hl Hfu. split; [|exact (C59_merkle_initialize_succeeds E w sg i t f p c)].
  intros (w' & evs & He). pose proof (merkle_exec_effect _ _ _ _ _ _ He) as [Hix _].
  unfold merkle_exec in He. rewrite Hix in He. cbn [ensure rbind] in He.
  apply m_initialize_inv in He as (b & Hs & Ha & Hn & Hne & _). split; try assumption; [by exists b|by split].
Qed.

(** ** Fee collection *)
Theorem C81_collect_fees : forall E w sg a, env_ok E -> treasury_keep E <= U64_MAX ->
  ((exists w' evs, lockup_exec E sg (LCollectFees a) w = Ok (w', evs)) <->
   collect_accs_ok a = true /\ fa_collector a ∈ sg /\ treasury_keep E < lam w (fa_treasury a) /\
   exists tr, lockup_treasury_view E (fa_treasury a) w = Ok tr /\ fa_collector a = tr_fee_collector tr).
Proof.
  intros E w sg a HE Hk. split.
  - intros (w' & evs & He). pose proof (lockup_exec_effect _ _ _ _ _ _ He) as [Hix _]. cbn [lockup_ix_ok] in Hix.
    pose proof He as He0. unfold lockup_exec in He0. cbn [lockup_ix_ok] in He0. rewrite Hix in He0. cbn [ensure rbind] in He0.
    apply collect_fees_inv in He0 as (tr & n & Hs & Ht & Hc & Ha & _).
    assert (lockup_treasury_view E (fa_treasury a) w = Ok tr) as Hv by (apply lockup_treasury_view_inv; by split).
    split_and!; [exact Hix|exact Hs| |by exists tr].
    destruct (Z.lt_ge_cases (treasury_keep E) (lam w (fa_treasury a))) as [Hlt|Hge]; [exact Hlt|].
    rewrite (proj2 (C27_lockup_collect_iff E sg a tr w HE Hk Hix Hv Hc Hs) Hge) in He. discriminate He.
  - intros (Hix & Hs & Hlt & tr & Hv & Hc).
    destruct (proj1 (C27_lockup_collect_iff E sg a tr w HE Hk Hix Hv Hc Hs) Hlt) as [[w' evs] Hx]. by exists w', evs.
Qed.
Theorem C81_merkle_collect_fees : forall E w sg a, env_ok E -> treasury_keep E <= U64_MAX ->
  ((exists w' evs, merkle_exec E sg (MCollectFees a) w = Ok (w', evs)) <->
   collect_accs_ok a = true /\ fa_collector a ∈ sg /\ treasury_keep E < lam w (fa_treasury a) /\
   exists tr, merkle_treasury_view E (fa_treasury a) w = Ok tr /\ fa_collector a = tr_fee_collector tr).
Proof.
  intros E w sg a HE Hk. split.
  - intros (w' & evs & He). pose proof (merkle_exec_effect _ _ _ _ _ _ He) as [Hix _]. cbn [merkle_ix_ok] in Hix.
    pose proof He as He0. unfold merkle_exec in He0. cbn [merkle_ix_ok] in He0. rewrite Hix in He0. cbn [ensure rbind] in He0.
    apply merkle_collect_fees_inv in He0 as (tr & n & Hs & Ht & Hc & Ha & _).
    assert (merkle_treasury_view E (fa_treasury a) w = Ok tr) as Hv by (apply merkle_treasury_view_inv; by split).
    split_and!; [exact Hix|exact Hs| |by exists tr].
    destruct (Z.lt_ge_cases (treasury_keep E) (lam w (fa_treasury a))) as [Hlt|Hge]; [exact Hlt|].
    rewrite (proj2 (C27_merkle_collect_iff E sg a tr w HE Hk Hix Hv Hc Hs) Hge) in He. discriminate He.
  - intros (Hix & Hs & Hlt & tr & Hv & Hc).
    destruct (proj1 (C27_merkle_collect_iff E sg a tr w HE Hk Hix Hv Hc Hs) Hlt) as [[w' evs] Hx]. by exists w', evs.
Qed.

(** ** Examples: the hypotheses hold in the run, for calls that succeed and for calls that fail by one condition *)
Example C81_example :
  (affordable E0 (T 1400 w1) kRecipient (wa_dest (withdraw_to 1 kRecipient)) kToken SplToken 363 0 /\
   is_ok (lockup_exec E0 [kRecipient] (LWithdraw (withdraw_to 1 kRecipient) 362) (T 1400 w1)) = true /\
   is_ok (lockup_exec E0 [kRecipient] (LWithdraw (withdraw_to 1 kRecipient) 363) (T 1400 w1)) = false) /\
  (affordable E0 (T 1600 w2) kSender (xa_sender_ata (cancel_of 1)) kToken SplToken 425 0 /\
   is_ok (lockup_exec E0 [kSender] (LCancel (cancel_of 1)) (T 1600 w2)) = true /\
   is_ok (lockup_exec E0 [kOther] (LCancel (cancel_of 1)) (T 1600 w2)) = false) /\
  (affordable E0 w6 kSender (ba_recipient_ata (clawback_to 1500 0 kSender)) kToken SplToken 401 0 /\
   is_ok (merkle_exec E0 [kSender] (MClawback (clawback_to 1500 0 kSender) 400) w6) = true /\
   is_ok (merkle_exec E0 [kSender] (MClawback (clawback_to 1500 0 kSender) 401) w6) = false) /\
  (affordable E0 w6 kOther (la_recipient_ata (claim_by kOther 1500 0 2 kCollector)) kToken SplToken 200 (Z.max 1 (rent_min E0 8) + 0) /\
   is_ok (merkle_exec E0 [kOther] (MClaim (claim_by kOther 1500 0 2 kCollector) 2 200 [nodeAB]) w6) = true /\
   is_ok (merkle_exec E0 [kOther] (MClaim (claim_by kOther 1500 0 2 kCollector) 2 201 [nodeAB]) w6) = false).
Proof.
  assert (forall E w p k m tp n x, match wdat w !! k with
    | Some _ => balance w k + n <= U64_MAX /\ (x <= 0 \/ (wdat w !! p = None /\ x <= lam w p))
    | None => 0 <= lam w k /\ ((ata_rent E m tp + x) <= 0 \/ (wdat w !! p = None /\ ata_rent E m tp + x <= lam w p)) end ->
    affordable E w p k m tp n x) as Haf.
  { intros E w p k m tp n x H. exact H. }
  split_and!; try (vm_compute; reflexivity); apply Haf.
  - vm_compute. split; [discriminate|]. right. split; [reflexivity|discriminate].
  - vm_compute. split; [discriminate|]. left. discriminate.
  - vm_compute. split; [discriminate|]. left. discriminate.
  - vm_compute. split; [discriminate|]. right. split; [reflexivity|discriminate].
Qed.
Example C81_create_example : create_affordable E0 w1 (create_for 3).
Proof.
  destruct C47_example as [_ R]. destruct R. split; [assumption|assumption|]. intros k Hk. exact (proj2 (kr_new k Hk)).
Qed.

Print Assumptions C81_renounce.
Print Assumptions C81_cancel.
Print Assumptions C81_withdraw.
Print Assumptions C81_withdraw_max.
Print Assumptions C81_clawback.
Print Assumptions C81_claim.
Print Assumptions C81_create.
Print Assumptions C81_create_durations.
Print Assumptions C81_campaign.
Print Assumptions C81_initialize.
Print Assumptions C81_merkle_initialize.
Print Assumptions C81_collect_fees.
Print Assumptions C81_merkle_collect_fees.
