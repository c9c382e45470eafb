(** C72: tokens whose Token-2022 extensions interfere with transfers (fees, refusals, confiscation by others). *)
From Verif Require Export PropConserve PropClawback PropFunded.
From Verif Require Import Lockup.

(** ** What the two programs take out of an account they control, whatever the token does *)

(** No instruction of either program takes more out of a token account owned by a stream than that stream's withdrawals and
    refunds, as reported by the events. Any token account of the stream, for any token. *)
Theorem C72_stream_vault : forall E C w a evs w' k s v t,
  env_ok E -> reachable E w -> step E C w a evs w' -> a <> AOthers ->
  wdat w !! k = Some (DStream s) -> wdat w !! v = Some (DToken t) -> t_owner t = k ->
  balance w v - paid_out k evs <= balance w' v /\ 0 <= paid_out k evs.
Proof.
  intros E C w a evs w' k s v t HE Hr Hst Hn Hk Hv Ho. pose proof (reachable_inv _ _ HE Hr) as Hi.
  pose proof (li_stream _ _ (inv_lockup _ _ Hi) _ _ Hk) as Hsi. pose proof (si_ok _ _ _ _ Hsi) as Hok.
  assert (pda_of E PLockup k = true) as Hp.
  { destruct (si_nft _ _ _ _ Hsi) as (nft & b & m & au & _ & Hka & _). by apply fpa_pda in Hka as [? _]. }
  unfold balance at 1. rewrite Hv. destruct Hst as [sg ix ? ? Hsg Hx|sg ix ? ? Hsg Hx|? _ _]; [| |done].
  - destruct (lockup_exec_effect _ _ _ _ _ _ Hx) as [_ Heff].
    destruct (lockup_stream _ _ _ _ _ _ _ _ Heff Hk) as (s' & Hk' & Hch).
    destruct (stream_change_vault _ _ _ _ _ _ _ _ _ _ _ HE Hsg Hx Hk Hok Hp Hch Hv Ho) as (t' & Hv' & _ & Hge).
    destruct (stream_change_ok _ _ _ _ _ _ _ _ _ Hok Hch) as (_ & _ & ?).
    unfold balance. rewrite Hv'. lia.
  - rewrite (merkle_paid_zero _ _ _ _ _ _ k Hx).
    destruct (merkle_frame _ _ _ _ _ _ HE Hsg Hx) as (S & F & HS).
    destruct (fr_tokens _ _ _ _ _ F _ _ Hv) as (t' & Hv' & _ & Hle).
    unfold balance. rewrite Hv'. specialize (Hle ltac:(congruence)). lia.
Qed.

(** The same for a campaign: claims and clawbacks. *)
Theorem C72_campaign_vault : forall E C w a evs w' k c v t,
  env_ok E -> reachable E w -> step E C w a evs w' -> a <> AOthers ->
  wdat w !! k = Some (DCampaign c) -> wdat w !! v = Some (DToken t) -> t_owner t = k ->
  balance w v - sum_amounts (claims_of k evs) - clawed_back k evs <= balance w' v.
Proof.
  intros E C w a evs w' k c v t HE Hr Hst Hn Hk Hv Ho. pose proof (reachable_inv _ _ HE Hr) as Hi.
  pose proof (mi_campaign _ _ (inv_merkle _ _ Hi) _ _ Hk) as [_ Ha _].
  assert (pda_of E PMerkle k = true) as Hp by (by apply fpa_pda in Ha as [? _]).
  enough (balance w v - campaign_paid k evs <= balance w' v) by (pose proof (paid_split k evs); lia).
  unfold balance at 1. rewrite Hv. destruct Hst as [sg ix ? ? Hsg Hx|sg ix ? ? Hsg Hx|? _ _]; [| |done].
  - destruct (lockup_no_claims _ _ _ _ _ _ k Hx) as [_ ->].
    destruct (lockup_frame _ _ _ _ _ _ HE Hsg Hx) as (S & F & HS).
    destruct (fr_tokens _ _ _ _ _ F _ _ Hv) as (t' & Hv' & _ & Hle).
    unfold balance. rewrite Hv'. specialize (Hle ltac:(congruence)). lia.
  - destruct (merkle_exec_effect _ _ _ _ _ _ Hx) as [_ Heff].
    destruct (merkle_campaign _ _ _ _ _ _ _ _ Heff Hk) as (c' & Hk' & Hch).
    destruct (campaign_change_vault _ _ _ _ _ _ _ _ _ _ _ HE Hsg Hx Hk Hp Hch Hv Ho) as (_ & t' & Hv' & _ & Hge).
    unfold balance. rewrite Hv'. lia.
Qed.

(** ** What is paid is there, and what arrives is at most what is paid *)

(** Every payout is covered by the vault when it happens: no partial payouts, no overdraft. *)
Theorem C72_payout_covered : forall E sg w w' evs,
  (forall a amount, lockup_exec E sg (LWithdraw a amount) w = Ok (w', evs) -> amount <= balance w (wa_vault a)) /\
  (forall a, lockup_exec E sg (LCancel a) w = Ok (w', evs) ->
     exists m ra sa nft, evs = [EvCancel m ra sa (xa_stream a) nft] /\ sa <= balance w (xa_vault a)) /\
  (forall a i amount proof, merkle_exec E sg (MClaim a i amount proof) w = Ok (w', evs) -> amount <= balance w (la_vault a)) /\
  (forall a amount, merkle_exec E sg (MClawback a amount) w = Ok (w', evs) -> amount <= balance w (ba_vault a)).
Proof.
  intros E sg w w' evs. split_and!.
  - intros a amount Hx. apply exec_withdraw_inv in Hx as (_ & _ & tr & m & nt & s & s' & vt & dt & fee & wd & F). destruct F.
    unfold balance. rewrite wf_vault. exact (pf_amount _ _ _ _ _ _ _ _ _ _ _ _ _ _ _ wf_pay).
  - intros a Hx. apply exec_cancel_inv in Hx as (m & s & vt & dt & st & F). destruct F.
    do 4 eexists. split; [exact cf_evs|]. unfold balance. rewrite cf_vault. exact (pf_amount _ _ _ _ _ _ _ _ _ _ _ _ _ _ _ cf_pay).
  - intros a i amount proof Hx. apply merkle_exec_effect in Hx as [_ Hx]. inversion Hx; subst.
    match goal with H : claim_facts _ _ _ _ _ _ _ _ _ _ _ _ _ _ _ |- _ => destruct H end.
    unfold balance. rewrite lf_vault. exact (pf_amount _ _ _ _ _ _ _ _ _ _ _ _ _ _ _ lf_pay).
  - intros a amount Hx. apply merkle_exec_effect in Hx as [_ Hx]. inversion Hx; subst.
    match goal with H : clawback_facts _ _ _ _ _ _ _ _ _ _ _ |- _ => destruct H end.
    unfold balance. rewrite bf_vault. exact (pf_amount _ _ _ _ _ _ _ _ _ _ _ _ _ _ _ bf_pay).
Qed.

(** So what the stream's records promise beyond the vault cannot be withdrawn: withdraw_max fails in full. *)
Theorem C72_shortfall_blocks : forall E sg a w wd,
  env_ok E -> reachable E w -> withdrawable_amount_of E (wa_stream a) (wa_nft_mint a) w = Ok wd ->
  balance w (wa_vault a) < wd -> exists e, lockup_exec E sg (LWithdrawMax a) w = Err e.
Proof.
  intros E sg a w wd HE Hr Hwd Hlt. rewrite (C11_withdraw_max_is_withdraw _ _ _ _ _ HE Hr Hwd).
  destruct (lockup_exec E sg (LWithdraw a wd) w) as [[w' evs]|e] eqn:Hx; [|by exists e]. exfalso.
  destruct (C72_payout_covered E sg w w' evs) as (H & _). specialize (H _ _ Hx). lia.
Qed.

(** ** No token is ever created by a payment; for every token the sum of all balances only grows by minted NFTs *)

Lemma payout_tok_sum_le D own d0 newd vault dest vt dt amount got m :
  D !! own = Some d0 -> is_token d0 = false -> is_token newd = false ->
  D !! vault = Some (DToken vt) ->
  (D !! dest = Some (DToken dt) \/ (D !! dest = None /\ t_amount dt = 0)) ->
  t_mint vt = t_mint dt -> got <= amount ->
  tok_sum (payout D own newd vault dest vt dt amount got) m <= tok_sum D m.
Proof.
  intros Ho H0 H1 Hv Hd Hm Hgot. unfold payout.
  assert (own <> vault) by (intros ->; rewrite Ho in Hv; by injection Hv as ->).
  assert (own <> dest) by (intros ->; rewrite Ho in Hd; destruct Hd as [Hd|[Hd _]]; [by injection Hd as ->|done]).
  case_decide as Hvd.
  - rewrite tok_sum_insert, Ho. simpl. rewrite !tok_of_non_token by done. lia.
  - rewrite !tok_sum_insert. rewrite lookup_insert_ne by done. rewrite lookup_insert_ne by done.
    rewrite lookup_insert_ne by done. rewrite Ho, Hv. simpl opt_tok. rewrite !tok_of_non_token by done.
    rewrite !tok_of_with_amount. unfold tok_of. rewrite Hm.
    destruct Hd as [->|[-> Hz]]; simpl; rewrite ?Hz; destruct (t_mint dt =? m) eqn:Hmm; bools; lia.
Qed.
Lemma payout_total_le E w D own newd vault dest vt dt amount tp mintk owner auth w' d0 m : env_ok E -> 0 <= amount ->
  payout_facts E w D own newd vault dest vt dt amount tp mintk owner auth w' ->
  wdat w !! vault = Some (DToken vt) -> wdat w !! own = Some d0 -> is_token d0 = false -> is_token newd = false ->
  (forall i, wdat w !! i <> None -> D !! i = wdat w !! i) -> (wdat w !! dest = None -> D !! dest = None) ->
  tok_sum D m = tok_sum (wdat w) m -> total_balance w' m <= total_balance w m.
Proof.
  intros HE Ham F Hv Ho Hd0 Hn HD Hdest Hs. destruct F. rewrite !total_balance_sum, (ds_dat _ _ _ pf_step), <- Hs.
  apply (payout_tok_sum_le _ _ d0); [rewrite HD; congruence|done|done|rewrite HD; congruence| |congruence|apply received_range; done].
  destruct pf_dest as [Hd|[Hd Hdt]]; [left; rewrite HD; congruence|right]. split; [by apply Hdest|]. by rewrite Hdt.
Qed.

Lemma create_tok_sum_le E sg a p w w' evs ct nc cm dm sb s name c0 c1 m : env_ok E -> 0 <= p_deposit p ->
  create_facts E sg a p w w' evs ct nc cm dm sb s name c0 c1 ->
  tok_sum (wdat w') m <= tok_sum (wdat w) m + (if m =? ca_nft_mint a then 1 else 0).
Proof.
  intros HE Hdep F. pose proof (create_neq _ _ _ _ _ _ _ _ _ _ _ _ _ _ _ _ F) as Hnd.
  pose proof (ds_dat _ _ _ (rf_step _ _ _ _ _ _ _ _ _ _ _ _ _ _ _ _ F)) as Hd. nodup_neq Hnd.
  destruct F. destruct rf_coll_md_kind as (? & ? & ? & ? & ? & ? & -> & ->).
  rewrite Hd. unfold create_map.
  rewrite tok_sum_insert_token by (mlook; done).
  rewrite (tok_sum_insert_same _ _ _ ct) by (mlook; done).
  rewrite tok_sum_insert_zero by (done || intros ?; mlook; congruence).
  rewrite tok_sum_insert_zero by (done || intros ?; mlook; congruence).
  rewrite tok_sum_insert_zero by (done || intros ?; mlook; congruence).
  rewrite tok_sum_insert_zero by (done || intros ?; mlook; congruence).
  rewrite tok_sum_insert_zero by (done || intros ?; mlook; congruence).
  rewrite tok_sum_insert_token by (mlook; done).
  rewrite tok_sum_insert_zero by (done || intros ?; mlook; congruence).
  simpl. rewrite rf_creator_mint. rewrite (Z.eqb_sym (ca_nft_mint a)).
  assert (deposited (s_amounts s) = p_deposit p) as -> by (by rewrite rf_s).
  pose proof (received_range E (ca_deposit_mint a) (ca_creator_ata a) (ca_vault a) (wclock w) (p_deposit p) HE Hdep) as Hrec.
  clear - Hrec. destruct (ca_deposit_mint a =? m), (m =? ca_nft_mint a); lia.
Qed.

Theorem C72_lockup_creates_nothing : forall E sg ix w w' evs, env_ok E -> signers_ok E sg -> lockup_exec E sg ix w = Ok (w', evs) ->
  forall m, total_balance w' m <= total_balance w m + minted_lockup ix m.
Proof.
  intros E sg ix w w' evs HE Hsg Hx m. destruct (C32_lockup _ _ _ _ _ _ HE Hsg Hx) as [_ H32]. specialize (H32 m) as [Hpl _].
  destruct (plain E m) eqn:Hp; [rewrite Hpl by done; lia|]. clear Hpl.
  apply lockup_exec_effect in Hx as [Hixok Heff].
  destruct Heff as [a f p c tb nb ? F|ix a p ct nc cm dm sb s1 nm c0 c1 ? ? Hix Hargs F|a s1 st ? ? Hsi Hse Hs ? ? ? ? -> ->|a mt s1 vt dt st ? ? F
      |ix a am tr mt nt s1 s' vt dt fee wd ? ? Hix Ham F|a tr n ? Hc Htr ? ? -> ? Hmv].
  - destruct F. rewrite !Forall_cons in if_fresh. destruct if_fresh as (? & ? & ? & ? & ? & ? & _). nodup_neq if_distinct.
    rewrite !total_balance_sum, (ds_dat _ _ _ if_step).
    rewrite tok_sum_insert_zero by (done || intros ?; mlook; congruence).
    rewrite tok_sum_insert_zero by (done || intros ?; mlook; congruence).
    rewrite tok_sum_insert_token by (mlook; done).
    rewrite tok_sum_insert_zero by (done || intros ?; mlook; congruence).
    rewrite tok_sum_insert_zero by (done || intros ?; mlook; congruence).
    rewrite tok_sum_insert_zero by (done || intros ?; mlook; congruence).
    simpl. rewrite (Z.eqb_sym m). lia.
  - assert (minted_lockup ix m = if m =? ca_nft_mint a then 1 else 0) as -> by (destruct Hix as [->|(q & -> & _)]; done).
    rewrite !total_balance_sum. eapply create_tok_sum_le; [done| |exact F]. apply Hargs.
  - cbn [minted_lockup]. rewrite Z.add_0_r, !total_balance_sum, wdat_set_dat. rewrite tok_sum_insert_zero; [lia|done|congruence].
  - cbn [minted_lockup]. rewrite Z.add_0_r. destruct F. eapply payout_total_le; [done| |exact cf_pay|done|exact cf_stream|done..]. lia.
  - assert (minted_lockup ix m = 0) as -> by (destruct Hix as [->|[-> _]]; done). rewrite !Z.add_0_r. destruct F.
    eapply payout_total_le; [done| |exact wf_pay|done|exact wf_stream|done..]. lia.
  - cbn [minted_lockup]. rewrite !Z.add_0_r. apply move_lamports_ok in Hmv as (Hd & _). unfold total_balance. rewrite Hd. lia.
Qed.

Theorem C72_merkle_creates_nothing : forall E sg ix w w' evs, env_ok E -> signers_ok E sg -> merkle_exec E sg ix w = Ok (w', evs) ->
  forall m, total_balance w' m <= total_balance w m.
Proof.
  intros E sg ix w w' evs HE Hsg Hx m. destruct (C32_merkle _ _ _ _ _ _ HE Hsg Hx) as [_ H32]. specialize (H32 m) as [Hpl _].
  destruct (plain E m) eqn:Hp; [rewrite Hpl by done; lia|]. clear Hpl.
  apply merkle_exec_effect in Hx as [Hixok Heff].
  destruct Heff as [i t1 f p c1 b ? Hi Ht Hn Hne Hd Hr|a g mt b c1 ? ? Hi Hm Hmp Hf Hn1 Hn2 Hne Hv Hc Hsz Hd ->|a i am pf tr mt c1 vt dt fee ? ? F
    |a am mt c1 vt dt ? ? F|a tr n ? Hc Htr Hcc Hca -> Hnpos Hmv].
  - rewrite !total_balance_sum, (ds_dat _ _ _ Hd). rewrite tok_sum_insert_zero; [lia|done|congruence].
  - rewrite !total_balance_sum, (ds_dat _ _ _ Hd). rewrite tok_sum_insert_zero; [|done|intros t; rewrite lookup_insert_ne by done; congruence].
    rewrite tok_sum_insert_token by done. simpl. destruct (na_mint a =? m); lia.
  - destruct F. eapply payout_total_le; [done| |exact lf_pay|done|exact lf_campaign|done|done| | |].
    + unfold merkle_ix_ok in Hixok. ranges. lia.
    + intros x Hx. by apply claim_D.
    + intros Hx. by rewrite lookup_insert_ne by done.
    + apply tok_sum_insert_zero; [done|congruence].
  - destruct F. eapply payout_total_le; [done| |exact bf_pay|done|exact bf_campaign|done..].
    unfold merkle_ix_ok in Hixok. ranges. lia.
  - apply move_lamports_ok in Hmv as (Hd & _). unfold total_balance. rewrite Hd. lia.
Qed.

(** ** The finding: a token with a transfer fee *)

(** A Token-2022 mint with a fee of 1 % (see [toy_env]); the sender has 100000 of it. *)
Definition kFeeToken : key := 5005.
Definition wx0 : world := {|
  wlam := list_to_map [(kSender, 10000000000); (kRecipient, 10000000000); (kOther, 10000000000)];
  wdat := list_to_map [(kFeeToken, DMint (Mint Token2022 100000 6 None None));
                       (ata kSender kFeeToken Token2022, DToken (TokAcc Token2022 kFeeToken kSender 100000 false));
                       (kFeed, feed0)];
  wclock := 1000 |}.
Lemma wx0_genesis : genesis E0 wx0.
Proof. apply genesis_from_check; vm_compute; reflexivity. Qed.
Definition kVaultX : key := ata (kStream kSender 1) kFeeToken Token2022.
Definition create_x : create_accs :=
  CreateAccs kSender (ata kSender kFeeToken Token2022) kRecipient kSender kCollData (kEdition kCollMint)
    (kMetadata kCollMint) kCollMint kFeeToken (kNft kSender 1) (ata kRecipient (kNft kSender 1) SplToken)
    (kStream kSender 1) kVaultX (kEdition (kNft kSender 1)) (kMetadata (kNft kSender 1)) Token2022 SplToken.
Definition withdraw_x : withdraw_accs :=
  WithdrawAccs kRecipient kRecipient kRecipient (ata kRecipient kFeeToken Token2022) kTreasury kFeeToken
    (ata kRecipient (kNft kSender 1) SplToken) (kStream kSender 1) kVaultX (kNft kSender 1)
    kOracle kFeed Token2022 SplToken.
Definition cancel_x : cancel_accs :=
  CancelAccs kSender (ata kSender kFeeToken Token2022) kFeeToken (kStream kSender 1) kVaultX (kNft kSender 1) Token2022.
(** A stream over 1000 is created; its schedule ends at 2000. *)
Definition script_x : list cmd :=
  [CL [kOther] (LInitialize init_accs kCollector kOracle kFeed); CL [kSender] (LCreateTs create_x dep1); CT 2000].
Definition wx : world := lit
  (ltac:(let x := eval vm_compute in (lam_of (script E0 script_x wx0)) in exact x))
  (ltac:(let x := eval vm_compute in (dat_of (script E0 script_x wx0)) in exact x))
  (ltac:(let x := eval vm_compute in (wclock (script E0 script_x wx0)) in exact x)).
Definition tr_x : trace := Eval vm_compute in script_trace E0 script_x wx0.
Lemma stage_x : stage E0 script_x wx0 tr_x wx.
Proof. apply stage_intro. vm_compute. reflexivity. Qed.
Lemma wx_hist : history E0 forward_clock tr_x wx.
Proof. refine (history_stage _ [] _ _ _ _ stage_x). exists wx0. split; [apply wx0_genesis|constructor]. Qed.

(** The program records the nominal deposit although the vault received less; when the whole amount is due the last part
    cannot be withdrawn, and withdraw_max is refused as a whole. What the vault holds can be withdrawn with an explicit amount,
    and the fee is taken from that again. (The project's SECURITY.md excludes such tokens.) *)
Theorem C72_fee_token_is_underfunded : exists w a s,
  reachable_fwd E0 w /\ stream_view E0 (wa_stream a) (wa_nft_mint a) w = Ok s /\ deposited (s_amounts s) = 1000 /\
  wdat w !! wa_vault a = Some (DToken (TokAcc Token2022 (s_mint s) (wa_stream a) 990 false)) /\
  withdrawable_amount_of E0 (wa_stream a) (wa_nft_mint a) w = Ok 1000 /\
  (forall sg, exists e, lockup_exec E0 sg (LWithdrawMax a) w = Err e) /\
  (exists w' evs, lockup_exec E0 [wa_stream_recipient a] (LWithdraw a 990) w = Ok (w', evs) /\
     balance w' (wa_dest a) = balance w (wa_dest a) + 981 /\ balance w' (wa_vault a) = 0).
Proof.
  assert (withdrawable_amount_of E0 (kStream kSender 1) (kNft kSender 1) wx = Ok 1000) as Hwd by (vm_compute; reflexivity).
  exists wx, withdraw_x. eexists. split; [eapply history_fwd; [apply wx_hist|vm_compute; reflexivity]|].
  split; [vm_compute; reflexivity|]. split; [reflexivity|]. split; [vm_compute; reflexivity|]. split; [exact Hwd|]. split.
  - intros sg. refine (C72_shortfall_blocks E0 sg withdraw_x wx 1000 E0_ok (history_reach _ _ _ wx_hist) Hwd _). vm_compute. reflexivity.
  - exists (L E0 [kRecipient] (LWithdraw withdraw_x 990) wx), (evs_of (lockup_exec E0 [kRecipient] (LWithdraw withdraw_x 990) wx)).
    split; [apply L_ok; vm_compute; reflexivity|]. split; vm_compute; reflexivity.
Qed.

(** Hypotheses of the other theorems: instructions on a stream of a fee token and on a campaign of the toy history. *)
Example C72_example : exists s c t,
  reachable E0 wx /\ wdat wx !! kStream kSender 1 = Some (DStream s) /\ plain E0 (s_mint s) = false /\
  wdat wx !! kVaultX = Some (DToken t) /\ t_owner t = kStream kSender 1 /\
  is_ok (lockup_exec E0 [kRecipient] (LWithdraw withdraw_x 500) wx) = true /\
  reachable E0 w5 /\ wdat w5 !! kCampaign 1500 0 = Some (DCampaign c) /\
  is_ok (merkle_exec E0 [kOther] (MClaim (claim_by kOther 1500 0 0 kRecipient) 0 500 [leafB; leafC]) (T 1800 w5)) = true /\
  total_balance (L E0 [kRecipient] (LWithdraw withdraw_x 500) wx) kFeeToken = 99985 /\
  total_balance wx kFeeToken = 99990.
Proof.
  do 3 eexists. split; [eapply history_reach, wx_hist|]. split; [vm_compute; reflexivity|]. split; [vm_compute; reflexivity|].
  split; [vm_compute; reflexivity|]. split; [vm_compute; reflexivity|]. split; [vm_compute; reflexivity|].
  split; [eapply history_reach, w5_hist|]. split; [vm_compute; reflexivity|]. split; [vm_compute; reflexivity|].
  split; vm_compute; reflexivity.
Qed.

Print Assumptions C72_stream_vault.
Print Assumptions C72_campaign_vault.
Print Assumptions C72_payout_covered.
Print Assumptions C72_shortfall_blocks.
Print Assumptions C72_lockup_creates_nothing.
Print Assumptions C72_merkle_creates_nothing.
Print Assumptions C72_fee_token_is_underfunded.
