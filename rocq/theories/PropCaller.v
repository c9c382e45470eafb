(** C85: it does not matter who delivers a payout. *)
From Verif Require Export PropExact PropCosts.
From Verif Require Import Lockup.

(** ** The same call by somebody else *)
Definition withdraw_by (s : key) (a : withdraw_accs) : withdraw_accs :=
  WithdrawAccs s (wa_stream_recipient a) (wa_withdrawal_recipient a) (wa_dest a) (wa_treasury a) (wa_mint a) (wa_nft_ata a)
    (wa_stream a) (wa_vault a) (wa_nft_mint a) (wa_chainlink a) (wa_feed a) (wa_tp a) (wa_nft_tp a).
Definition claim_called_by (s : key) (a : claim_accs) : claim_accs :=
  ClaimAccs s (la_recipient a) (la_recipient_ata a) (la_treasury a) (la_mint a) (la_campaign a) (la_vault a) (la_receipt a)
    (la_chainlink a) (la_feed a) (la_tp a).
(** The Claim event also names the claimer; everything else in it. *)
Definition without_claimer (e : event) : event :=
  match e with EvClaim n c _ r f i re => EvClaim n c 0 r f i re | e => e end.

(** [w1] and [w2] are what two callers [s1] and [s2] make of [w]: the same data everywhere, the same lamports on all other
    accounts, and the same price for both callers. *)
Record same_but_caller (w : world) (s1 : key) (w1 : world) (s2 : key) (w2 : world) : Prop := {
  sb_data : wdat w2 = wdat w1;
  sb_clock : wclock w2 = wclock w1;
  sb_others : forall k, k <> s1 -> k <> s2 -> lam w2 k = lam w1 k;
  sb_price : lam w s2 - lam w2 s2 = lam w s1 - lam w1 s1 }.

Lemma dest_unique w dest dt dt' owner mintk tp : dest_before w dest dt -> dest_before w dest dt' ->
  t_owner dt = owner -> t_mint dt = mintk -> t_prog dt = tp -> t_owner dt' = owner -> t_mint dt' = mintk -> t_prog dt' = tp -> dt = dt'.
Proof.
  intros [H|[H E1]] [H'|[H' E2]] O1 M1 P1 O2 M2 P2.
  - congruence.
  - congruence.
  - congruence.
  - rewrite E1, E2. congruence.
Qed.
Lemma payout_unique E w D own newd vault dest vt dt dt' amount tp mintk owner auth w1 w2 :
  payout_facts E w D own newd vault dest vt dt amount tp mintk owner auth w1 ->
  payout_facts E w D own newd vault dest vt dt' amount tp mintk owner auth w2 -> wdat w2 = wdat w1 /\ wclock w2 = wclock w1.
Proof.
  intros F1 F2. destruct F1, F2.
  pose proof (dest_unique _ _ _ _ _ _ _ pf_dest pf_dest0 pf_dest_owner pf_dest_mint pf_dest_prog pf_dest_owner0 pf_dest_mint0 pf_dest_prog0) as <-.
  rewrite (ds_dat _ _ _ pf_step), (ds_dat _ _ _ pf_step0), (ds_clock _ _ _ pf_step), (ds_clock _ _ _ pf_step0). split; reflexivity.
Qed.

Lemma net_caller E w s1 s2 t fee l k : k <> s1 -> k <> s2 ->
  net ([(s1, t, fee)] ++ [] ++ rents E w s1 l ++ levies E s1 []) k = net ([(s2, t, fee)] ++ [] ++ rents E w s2 l ++ levies E s2 []) k.
Proof.
  intros H1 H2. cbn [levies map app]. rewrite !app_nil_r. unfold net, rents. cbn [fold_right].
  rewrite (proj2 (Z.eqb_neq k s1) H1), (proj2 (Z.eqb_neq k s2) H2). f_equal.
  induction l as [|[x n] l IH]; cbn; [reflexivity|].
  rewrite (proj2 (Z.eqb_neq k s1) H1), (proj2 (Z.eqb_neq k s2) H2). rewrite IH. reflexivity.
Qed.
Lemma bills_agree E sg1 sg2 i1 i2 w w1 w2 evs1 evs2 : env_ok E ->
  exec E sg1 i1 w = Ok (w1, evs1) -> exec E sg2 i2 w = Ok (w2, evs2) ->
  fee_quote E i1 w = fee_quote E i2 w -> opens E i1 = opens E i2 -> metadata_made i1 = metadata_made i2 ->
  is_collect i1 = false -> is_collect i2 = false ->
  (forall fee k, k <> payer_of i1 -> k <> payer_of i2 -> net (bill E w i1 fee) k = net (bill E w i2 fee) k) ->
  (forall k, k <> payer_of i1 -> k <> payer_of i2 -> lam w2 k = lam w1 k) /\
  lam w (payer_of i2) - lam w2 (payer_of i2) = lam w (payer_of i1) - lam w1 (payer_of i1).
Proof.
  intros HE X1 X2 Hq Ho Hm C1 C2 Hn.
  destruct (C66_bill _ _ _ _ _ _ HE X1) as (f1 & Q1 & _ & B1). destruct (C66_bill _ _ _ _ _ _ HE X2) as (f2 & Q2 & _ & B2).
  rewrite Hq, Q2 in Q1. injection Q1 as <-.
  destruct (C66_payer _ _ _ _ _ _ HE X1 C1) as (g1 & Q3 & P1). destruct (C66_payer _ _ _ _ _ _ HE X2 C2) as (g2 & Q4 & P2).
  rewrite Hq, Q2 in Q3. injection Q3 as <-. rewrite Q2 in Q4. injection Q4 as <-. rewrite Ho, Hm in P1. split.
  - intros k H1 H2. rewrite (B1 k), (B2 k), (Hn f2 k H1 H2). reflexivity.
  - rewrite P1, P2. lia.
Qed.

(** ** Two callers who both succeed have done the same *)
Theorem C85_same_withdraw : forall E w sg1 sg2 a s2 amount w1 evs1 w2 evs2, env_ok E ->
  lockup_exec E sg1 (LWithdraw a amount) w = Ok (w1, evs1) ->
  lockup_exec E sg2 (LWithdraw (withdraw_by s2 a) amount) w = Ok (w2, evs2) ->
  evs2 = evs1 /\ same_but_caller w (wa_signer a) w1 s2 w2.
Proof.
  intros E w sg1 sg2 a s2 amount w1 evs1 w2 evs2 HE X1 X2.
  pose proof (bills_agree E sg1 sg2 (IL (LWithdraw a amount)) (IL (LWithdraw (withdraw_by s2 a) amount)) w w1 w2 evs1 evs2 HE X1 X2
    eq_refl eq_refl eq_refl eq_refl eq_refl (fun fee k H1 H2 => net_caller E w _ _ (wa_treasury a) fee _ k H1 H2)) as [HL HP].
  apply exec_withdraw_inv in X1 as (_ & _ & tr & m & nt & s & s' & vt & dt & fee & wd & F1).
  apply exec_withdraw_inv in X2 as (_ & _ & tr2 & m2 & nt2 & s0 & s0' & vt2 & dt2 & fee2 & wd2 & F2).
  destruct F1, F2. cbn in *.
  assert (s0 = s) as -> by congruence. assert (s0' = s') as -> by congruence. assert (vt2 = vt) as -> by congruence.
  assert (fee2 = fee) as -> by congruence.
  destruct (payout_unique _ _ _ _ _ _ _ _ _ _ _ _ _ _ _ _ _ wf_pay wf_pay0) as [Hd Hc].
  split; [congruence|]. split; assumption.
Qed.
Theorem C85_same_withdraw_max : forall E w sg1 sg2 a s2 w1 evs1 w2 evs2, env_ok E ->
  lockup_exec E sg1 (LWithdrawMax a) w = Ok (w1, evs1) ->
  lockup_exec E sg2 (LWithdrawMax (withdraw_by s2 a)) w = Ok (w2, evs2) ->
  evs2 = evs1 /\ same_but_caller w (wa_signer a) w1 s2 w2.
Proof.
  intros E w sg1 sg2 a s2 w1 evs1 w2 evs2 HE X1 X2.
  pose proof (bills_agree E sg1 sg2 (IL (LWithdrawMax a)) (IL (LWithdrawMax (withdraw_by s2 a))) w w1 w2 evs1 evs2 HE X1 X2
    eq_refl eq_refl eq_refl eq_refl eq_refl (fun fee k H1 H2 => net_caller E w _ _ (wa_treasury a) fee _ k H1 H2)) as [HL HP].
  apply exec_withdraw_max_inv in X1 as (_ & tr & m & nt & s & s' & vt & dt & fee & wd & _ & F1).
  apply exec_withdraw_max_inv in X2 as (_ & tr2 & m2 & nt2 & s0 & s0' & vt2 & dt2 & fee2 & wd2 & _ & F2).
  destruct F1, F2. cbn in *.
  assert (s0 = s) as -> by congruence. assert (wd2 = wd) as -> by congruence.
  assert (s0' = s') as -> by congruence. assert (vt2 = vt) as -> by congruence.
  assert (fee2 = fee) as -> by congruence.
  destruct (payout_unique _ _ _ _ _ _ _ _ _ _ _ _ _ _ _ _ _ wf_pay wf_pay0) as [Hd Hc].
  split; [congruence|]. split; assumption.
Qed.
Theorem C85_same_claim : forall E w sg1 sg2 a s2 index amount proof w1 evs1 w2 evs2, env_ok E ->
  merkle_exec E sg1 (MClaim a index amount proof) w = Ok (w1, evs1) ->
  merkle_exec E sg2 (MClaim (claim_called_by s2 a) index amount proof) w = Ok (w2, evs2) ->
  map without_claimer evs2 = map without_claimer evs1 /\ same_but_caller w (la_claimer a) w1 s2 w2.
Proof.
  intros E w sg1 sg2 a s2 index amount proof w1 evs1 w2 evs2 HE X1 X2.
  pose proof (bills_agree E sg1 sg2 (IM (MClaim a index amount proof)) (IM (MClaim (claim_called_by s2 a) index amount proof)) w w1 w2 evs1 evs2 HE X1 X2
    eq_refl eq_refl eq_refl eq_refl eq_refl (fun fee k H1 H2 => net_caller E w _ _ (la_treasury a) fee _ k H1 H2)) as [HL HP].
  apply exec_claim_inv in X1 as (_ & tr & m & c & vt & dt & fee & F1).
  apply exec_claim_inv in X2 as (_ & tr2 & m2 & c2 & vt2 & dt2 & fee2 & F2).
  destruct F1, F2. cbn in *.
  assert (c2 = c) as -> by congruence. assert (vt2 = vt) as -> by congruence. assert (fee2 = fee) as -> by congruence.
  destruct (payout_unique _ _ _ _ _ _ _ _ _ _ _ _ _ _ _ _ _ lf_pay lf_pay0) as [Hd Hc].
  split; [rewrite lf_evs, lf_evs0; reflexivity|]. split; assumption.
Qed.

(** ** Whatever one caller can deliver, everybody with the lamports can *)
(** A payout to the holder of the NFT. (To another destination only the holder can send it: C10.) *)
Theorem C85_anyone_can_deliver : forall E w sg1 sg2 a s2 amount s w1 evs1, env_ok E -> reachable_fwd E w ->
  lockup_exec E sg1 (LWithdraw a amount) w = Ok (w1, evs1) ->
  wa_withdrawal_recipient a = wa_stream_recipient a -> stream_at E w (wa_stream a) (wa_nft_mint a) s ->
  deposited (s_amounts s) - withdrawn (s_amounts s) - refunded (s_amounts s) <= balance w (wa_vault a) ->
  is_key s2 = true -> s2 ∈ sg2 -> (wdat w !! wa_dest a = None -> s2 <> wa_dest a) ->
  (forall fee, withdrawal_fee_in_lamports E (wa_treasury a) (wa_chainlink a) (wa_feed a) w = Ok fee ->
     affordable E w s2 (wa_dest a) (wa_mint a) (wa_tp a) amount fee) ->
  exists w2, lockup_exec E sg2 (LWithdraw (withdraw_by s2 a) amount) w = Ok (w2, evs1) /\ same_but_caller w (wa_signer a) w1 s2 w2.
Proof.
  intros E w sg1 sg2 a s2 amount s w1 evs1 HE Hr He Hto Hs Hva Hk2 Hin Hne Haf. pose proof He as X1.
  pose proof (lockup_exec_effect _ _ _ _ _ _ He) as [Hix _].
  pose proof (exec_withdraw_inv _ _ _ _ _ _ _ He) as (Hpos & Hacc & tr & m & nt & s1 & s' & vt & dt & fee & wd & F).
  unfold lockup_exec in He. rewrite Hix in He. cbn [ensure rbind] in He.
  pose proof (withdraw_needs _ _ _ _ _ _ _ He) as P. pose proof (withdraw_stream_view _ _ _ _ _ _ _ _ _ _ _ _ _ _ _ _ F) as Hv.
  pose proof (wf_pay _ _ _ _ _ _ _ _ _ _ _ _ _ _ _ _ F) as Fp. destruct F.
  rewrite (proj1 Hs) in wf_stream. injection wf_stream as <-. destruct P.
  assert (withdrawal_fee_in_lamports E (wa_treasury a) (wa_chainlink a) (wa_feed a) w = Ok fee) as Hfee.
  { destruct wf_oracle as [O1 O2]. exact (fee_view_of _ _ _ _ _ wf_treasury wf_treasury_addr O1 O2 wf_fee). }
  assert (withdraw_ready E w sg2 (withdraw_by s2 a) amount fee s) as R.
  { split; cbn.
    - exact Hin.
    - clear - Hacc Hk2. unfold withdraw_accs_ok in *. cbn in *. rewrite Hk2. cbn. apply andb_prop in Hacc as [_ Hacc]. exact Hacc.
    - exact Hs.
    - split; [exact wf_nft_addr|]. exists nt. split_and!; assumption.
    - left. exact Hto.
    - split; [exact wf_mint_addr|exact ps_mint].
    - split; [|split; [assumption|split; [|exact Hva]]].
      + exists vt. rewrite (pf_vault_prog _ _ _ _ _ _ _ _ _ _ _ _ _ _ _ Fp). split_and!; [assumption|exact (pf_vault_owner _ _ _ _ _ _ _ _ _ _ _ _ _ _ _ Fp)| |rewrite <- wf_mint_addr; assumption].
        rewrite <- wf_mint_addr. exact (pf_vault_mint _ _ _ _ _ _ _ _ _ _ _ _ _ _ _ Fp).
      + exists vt. split; [assumption|exact (pf_vault_prog _ _ _ _ _ _ _ _ _ _ _ _ _ _ _ Fp)].
    - exact Hfee.
    - exact (receivable _ _ _ _ _ _ _ _ _ _ _ _ _ _ _ _ _ Fp ps_to (Haf _ Hfee) Hne).
    - assumption. }
  destruct (C19_withdraw_succeeds E w sg2 (withdraw_by s2 a) amount fee s wd HE Hr R) as (w2 & evs2 & X2).
  { cbn. unfold withdrawable_amount_of. rewrite Hv. cbn [rbind]. exact wf_wd. }
  { lia. }
  destruct (C85_same_withdraw _ _ _ _ _ _ _ _ _ _ _ HE X1 X2) as [<- Hsame]. exists w2. split; [exact X2|exact Hsame].
Qed.
(** A claim, always to the recipient of the entry. *)
Theorem C85_anyone_can_claim : forall E w sg1 sg2 a s2 index amount proof w1 evs1, env_ok E -> reachable E w ->
  merkle_exec E sg1 (MClaim a index amount proof) w = Ok (w1, evs1) ->
  is_key s2 = true -> s2 ∈ sg2 -> signers_ok E sg2 -> (wdat w !! la_recipient_ata a = None -> s2 <> la_recipient_ata a) ->
  0 <= lam w (la_receipt a) ->
  (forall fee, claim_fee_in_lamports E (la_treasury a) (la_chainlink a) (la_feed a) w = Ok fee ->
     affordable E w s2 (la_recipient_ata a) (la_mint a) (la_tp a) amount (Z.max 1 (rent_min E 8) + fee)) ->
  exists w2 evs2, merkle_exec E sg2 (MClaim (claim_called_by s2 a) index amount proof) w = Ok (w2, evs2) /\
    map without_claimer evs2 = map without_claimer evs1 /\ same_but_caller w (la_claimer a) w1 s2 w2.
Proof.
  intros E w sg1 sg2 a s2 index amount proof w1 evs1 HE Hr He Hk2 Hin Hsg Hne Hlam Haf. pose proof He as X1.
  pose proof (reachable_inv _ _ HE Hr) as Hi.
  pose proof (exec_claim_inv _ _ _ _ _ _ _ _ _ He) as (Hix & tr & m & c & vt & dt & fee & F).
  unfold merkle_exec in He. rewrite Hix in He. cbn [ensure rbind] in He.
  pose proof (claim_needs _ _ _ _ _ _ _ _ _ He) as P. pose proof (lf_pay _ _ _ _ _ _ _ _ _ _ _ _ _ _ _ F) as Fp. destruct F, P.
  assert (campaign_view (la_campaign a) w = Ok c) as Hc by (apply load_campaign_ok; exact lf_campaign).
  assert (claim_fee_in_lamports E (la_treasury a) (la_chainlink a) (la_feed a) w = Ok fee) as Hfee.
  { apply claim_fee_view_inv. exists tr. destruct lf_oracle as [O1 O2]. split; [apply merkle_treasury_view_inv; split; assumption|].
    split; [exact O1|split; [exact O2|exact lf_fee]]. }
  assert (claim_ready E w sg2 (claim_called_by s2 a) (Entry index (la_recipient a) amount) fee c) as R.
  { split; cbn [e_index e_recipient e_amount claim_called_by la_claimer la_recipient la_recipient_ata la_treasury la_mint la_campaign la_vault la_receipt
      la_chainlink la_feed la_tp].
    - exact Hin.
    - exact Hc.
    - apply (window_expired E w (la_campaign a) c Hi lf_campaign). split; [exact lf_started|exact lf_not_expired].
    - reflexivity.
    - apply has_claimed_inv. split; [exists c; exact Hc|]. split; [exact lf_receipt_addr|]. split; [discriminate 1|intros Hn; exfalso; exact (Hn lf_receipt)].
    - split; [exact lf_mint_addr|exact ps_mint].
    - split; [exact lf_vault_addr|]. exists vt.
      split_and!; [exact lf_vault|exact (pf_vault_owner _ _ _ _ _ _ _ _ _ _ _ _ _ _ _ Fp)| |exact (pf_vault_prog _ _ _ _ _ _ _ _ _ _ _ _ _ _ _ Fp)| |exact (pf_amount _ _ _ _ _ _ _ _ _ _ _ _ _ _ _ Fp)].
      + rewrite <- lf_mint_addr. exact (pf_vault_mint _ _ _ _ _ _ _ _ _ _ _ _ _ _ _ Fp).
      + unfold frozen in ps_from. rewrite lf_vault in ps_from. exact ps_from.
    - exact Hfee.
    - exact Hlam.
    - exact (receivable _ _ _ _ _ _ _ _ _ _ _ _ _ _ _ _ _ Fp ps_to (Haf _ Hfee) Hne).
    - exact ps_allows. }
  assert (forallb is_key [la_claimer a; la_recipient a; la_recipient_ata a; la_treasury a; la_mint a;
      la_campaign a; la_vault a; la_receipt a; la_chainlink a; la_feed a] = true /\ is_u32 index = true /\ is_u64 amount = true /\ forallb is_hash proof = true) as (K1 & K2 & K3 & K4).
  { clear - Hix. unfold merkle_ix_ok in Hix. rewrite !andb_true_iff in Hix. tauto. }
  assert (entry_ok (Entry index (la_recipient a) amount)) as Hen.
  { split; cbn [e_index e_recipient e_amount]; [clear - K2; unfold is_u32 in K2; lia|]. split; [|clear - K3; unfold is_u64 in K3; lia].
    clear - K1. cbn [forallb] in K1. rewrite !andb_true_iff in K1. destruct K1 as (_ & K1 & _). apply is_key_ok in K1. exact K1. }
  assert (forallb is_key [s2; la_recipient a; la_recipient_ata a; la_treasury a; la_mint a;
      la_campaign a; la_vault a; la_receipt a; la_chainlink a; la_feed a] = true) as K1'.
  { clear - K1 Hk2. cbn [forallb] in *. rewrite Hk2. cbn [andb]. apply andb_prop in K1 as [_ K1]. exact K1. }
  destruct (claim_live E w sg2 (claim_called_by s2 a) _ fee c proof HE Hi Hsg Hen K1' K4 lf_proof R) as [w2 X2].
  cbn [e_index e_amount] in X2.
  eexists _, _. split; [exact X2|]. exact (C85_same_claim _ _ _ _ _ _ _ _ _ _ _ _ _ HE X1 X2).
Qed.

(** The recipient and a bystander, in a stream and in a campaign: both calls pass, with the same accounts and events, and both
    callers can afford it. *)
Example C85_example :
  (is_ok (lockup_exec E0 [kRecipient] (LWithdraw (withdraw_to 1 kRecipient) 100) (T 1400 w1)) = true /\
   is_ok (lockup_exec E0 [kOther] (LWithdraw (withdraw_by kOther (withdraw_to 1 kRecipient)) 100) (T 1400 w1)) = true /\
   is_ok (lockup_exec E0 [kRecipient] (LWithdrawMax (withdraw_to 1 kRecipient)) (T 1400 w1)) = true /\
   is_ok (lockup_exec E0 [kOther] (LWithdrawMax (withdraw_by kOther (withdraw_to 1 kRecipient))) (T 1400 w1)) = true) /\
  affordable E0 (T 1400 w1) kOther (wa_dest (withdraw_to 1 kRecipient)) kToken SplToken 100 0 /\
  (is_ok (merkle_exec E0 [kOther] (MClaim (claim_by kOther 1500 0 2 kCollector) 2 200 [nodeAB]) w6) = true /\
   is_ok (merkle_exec E0 [kSender] (MClaim (claim_called_by kSender (claim_by kOther 1500 0 2 kCollector)) 2 200 [nodeAB]) w6) = true) /\
  affordable E0 w6 kSender (la_recipient_ata (claim_by kOther 1500 0 2 kCollector)) kToken SplToken 200 (Z.max 1 (rent_min E0 8) + 0).
Proof.
  assert (forall E w p k m tp n x, match wdat w !! k with
    | Some _ => balance w k + n <= U64_MAX /\ (x <= 0 \/ (wdat w !! p = None /\ x <= lam w p))
    | None => 0 <= lam w k /\ ((ata_rent E m tp + x) <= 0 \/ (wdat w !! p = None /\ ata_rent E m tp + x <= lam w p)) end ->
    affordable E w p k m tp n x) as Haf.
  { intros E w p k m tp n x H. exact H. }
  split_and!; try (vm_compute; reflexivity); apply Haf.
  - vm_compute. split; [discriminate|]. right. split; [reflexivity|discriminate].
  - vm_compute. split; [discriminate|]. right. split; [reflexivity|discriminate].
Qed.

Print Assumptions C85_same_withdraw.
Print Assumptions C85_same_withdraw_max.
Print Assumptions C85_same_claim.
Print Assumptions C85_anyone_can_deliver.
Print Assumptions C85_anyone_can_claim.
