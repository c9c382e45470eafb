(** Every successful instruction, as a table of its facts; what a step leaves alone. *)
From Verif Require Export Frame3.

(** ** The table *)

Definition create_args_ok (p : create_args) : Prop :=
  0 <= p_salt p <= U128_MAX /\ 0 <= p_deposit p <= U64_MAX /\ 0 <= p_start p <= U64_MAX /\
  0 <= p_cliff p <= U64_MAX /\ 0 <= p_end p <= U64_MAX /\ 0 <= p_start_unlock p <= U64_MAX /\
  0 <= p_cliff_unlock p <= U64_MAX.

Inductive lockup_effect (E : env) (sg : list key) (w : world) : lockup_ix -> world -> list event -> Prop :=
| le_initialize a f p c tb nb w' : init_facts E sg a f p c w w' tb nb ->
    lockup_effect E sg w (LInitialize a f p c) w' []
| le_create ix a p ct nc cm dm sb s name c0 c1 w' evs :
    (ix = LCreateTs a p \/ exists q, ix = LCreateDur a q /\ p = dur_args q (get_current_time w)) ->
    create_args_ok p ->
    create_facts E sg a p w w' evs ct nc cm dm sb s name c0 c1 -> lockup_effect E sg w ix w' evs
| le_renounce a s streamed w' evs :
    ra_sender a ∈ sg -> ra_sender a = s_sender s -> wdat w !! ra_stream a = Some (DStream s) ->
    create_program_address E PLockup (stream_seeds (ra_nft_mint a)) (s_bump s) = Some (ra_stream a) ->
    get_streamed_amount (get_current_time w) (s_times s) (s_amounts s) (s_depleted s) (s_canceled s) = Ok streamed ->
    s_cancelable s = true -> streamed < deposited (s_amounts s) ->
    w' = set_dat (ra_stream a) (DStream (stream_renounce s)) w ->
    evs = [EvRenounce (s_mint s) (ra_stream a) (ra_nft_mint a)] ->
    lockup_effect E sg w (LRenounce a) w' evs
| le_cancel a m s vt dt streamed w' evs : cancel_facts E sg a w w' evs m s vt dt streamed ->
    lockup_effect E sg w (LCancel a) w' evs
| le_withdraw ix a amount tr m nt s s' vt dt fee wd w' evs :
    (ix = LWithdraw a amount \/ (ix = LWithdrawMax a /\ amount = wd)) -> 0 < amount ->
    withdraw_facts E sg a amount w w' evs tr m nt s s' vt dt fee wd ->
    lockup_effect E sg w ix w' evs
| le_fees a tr n w' : fa_collector a ∈ sg -> wdat w !! fa_treasury a = Some (DLockupTreasury tr) ->
    fa_collector a = tr_fee_collector tr ->
    create_program_address E PLockup [s_TREASURY] (tr_bump tr) = Some (fa_treasury a) ->
    n = lam w (fa_treasury a) - (rent_min E TREASURY_SPACE + COLLECT_BUFFER) -> 0 < n ->
    move_lamports (fa_treasury a) (fa_recipient a) n w = Ok w' ->
    lockup_effect E sg w (LCollectFees a) w' [EvLockupFees n (fa_collector a) (fa_recipient a)].

Lemma is_u64_ok x : is_u64 x = true -> 0 <= x <= U64_MAX.
Proof. unfold is_u64. intros. bools. auto. Qed.
Lemma is_u128_ok x : is_u128 x = true -> 0 <= x <= U128_MAX.
Proof. unfold is_u128. intros. bools. auto. Qed.
Lemma is_u32_ok x : is_u32 x = true -> 0 <= x <= 4294967295.
Proof. unfold is_u32. intros. bools. auto. Qed.
Lemma is_key_ok x : is_key x = true -> key_ok x.
Proof. unfold is_key, key_ok. intros. bools. auto. Qed.

Ltac ranges :=
  repeat match goal with
  | H : forallb _ [] = true |- _ => clear H
  | H : forallb _ (_ :: _) = true |- _ => cbn [forallb] in H
  | H : andb _ _ = true |- _ => apply andb_prop in H; destruct H
  | H : is_u64 _ = true |- _ => apply is_u64_ok in H
  | H : is_u32 _ = true |- _ => apply is_u32_ok in H
  | H : is_u128 _ = true |- _ => apply is_u128_ok in H
  | H : is_key _ = true |- _ => apply is_key_ok in H
  end.

Lemma withdrawable_nonneg now ts am d c x : get_withdrawable_amount now ts am d c = Ok x -> 0 <= x.
Proof. unfold get_withdrawable_amount. intros H. inv_all H. loads. lia. Qed.

Lemma lockup_exec_effect E sg ix w w' evs : lockup_exec E sg ix w = Ok (w', evs) ->
  lockup_ix_ok ix = true /\ lockup_effect E sg w ix w' evs.
Proof.
  unfold lockup_exec. intros H. inv_all H. split; [done|]. destruct ix.
  - apply initialize_inv in H as [-> (tb & nb & H)]. by eapply le_initialize.
  - apply create_ts_inv in H as (ct & nc & cm & dm & sb & s & nm & c0 & c1 & H).
    eapply le_create; [left; done| |exact H].
    unfold lockup_ix_ok in *. ranges. done.
  - apply create_dur_inv in H as (H & H1 & H2).
    apply create_ts_inv in H as (ct & nc & cm & dm & sb & s & nm & c0 & c1 & H).
    eapply le_create; [right; eexists; split; done| |exact H].
    unfold lockup_ix_ok in *. ranges. unfold create_args_ok, dur_args. simpl.
    pose proof (as_u64_range (wclock w)). unfold get_current_time in *.
    destruct (0 <? q_cliff_duration q) eqn:?; bools; split_and!; lia.
  - apply renounce_inv in H as (s & st & ? & ? & ? & _ & ? & ? & ? & ? & ? & ?). by eapply le_renounce.
  - apply cancel_inv in H as (m & s & vt & dt & st & H). by eapply le_cancel.
  - apply withdraw_inv in H as (tr & m & nt & s & s' & vt & dt & fee & wd & H).
    eapply le_withdraw; [left; done| |exact H].
    pose proof (wf_nonzero _ _ _ _ _ _ _ _ _ _ _ _ _ _ _ _ H). unfold lockup_ix_ok in *. ranges. lia.
  - apply withdraw_max_eq in H as (wd & (w1 & s1 & m1 & Ha & Hg) & H).
    apply withdraw_accounts_inv in Ha as (tr1 & nt1 & vt1 & Ha).
    assert (Hs : wdat w !! wa_stream a = Some (DStream s1)) by (repeat (destruct Ha as [? Ha]; try done)). clear Ha.
    apply withdraw_inv in H as (tr & m & nt & s & s' & vt & dt & fee & wd' & H).
    pose proof (wf_stream _ _ _ _ _ _ _ _ _ _ _ _ _ _ _ _ H) as Hs'. rewrite Hs in Hs'. injection Hs' as ->.
    pose proof (wf_wd _ _ _ _ _ _ _ _ _ _ _ _ _ _ _ _ H) as Hw. rewrite Hg in Hw. injection Hw as <-.
    eapply le_withdraw; [right; done| |exact H].
    apply withdrawable_nonneg in Hg. pose proof (wf_nonzero _ _ _ _ _ _ _ _ _ _ _ _ _ _ _ _ H). lia.
  - apply collect_fees_inv in H as (tr & n & ? & ? & ? & ? & -> & ? & ? & ->). by eapply le_fees.
Qed.

Inductive merkle_effect (E : env) (sg : list key) (w : world) : merkle_ix -> world -> list event -> Prop :=
| me_initialize i t f p c b w' :
    i ∈ sg -> find_program_address E PMerkle [s_TREASURY] = Ok (t, b) -> wdat w !! t = None -> i <> t ->
    data_step w w' (<[t:=DMerkleTreasury (Treasury b f p c)]> (wdat w)) -> rent_min E TREASURY_SPACE <= lam w' t ->
    merkle_effect E sg w (MInitialize i t f p c) w' []
| me_create a g m b c w' evs :
    na_creator a ∈ sg -> wdat w !! na_mint a = Some (DMint m) -> m_prog m = na_tp a ->
    find_program_address E PMerkle
      (campaign_seeds (na_creator a) (g_root g) (g_start g) (g_expiration g) (g_name g) (na_mint a)) = Ok (na_campaign a, b) ->
    wdat w !! na_campaign a = None -> wdat w !! na_vault a = None -> na_campaign a <> na_vault a ->
    ata_address E (na_campaign a) (na_mint a) (na_tp a) = Ok (na_vault a) ->
    c = Campaign (na_mint a) b (g_start g) (na_creator a) (g_expiration g) 0 (g_ipfs g) (g_root g) (g_name g) ->
    campaign_size c <= CAMPAIGN_SPACE ->
    data_step w w' (<[na_campaign a:=DCampaign c]>
      (<[na_vault a:=DToken (TokAcc (na_tp a) (na_mint a) (na_campaign a) 0 false)]> (wdat w))) ->
    evs = [EvCreateCampaign (g_aggregate g) (na_campaign a) (g_name g) (g_start g) (na_creator a) (g_expiration g)
         (g_ipfs g) (g_root g) (g_recipient_count g) (m_decimals m) (na_mint a)] ->
    merkle_effect E sg w (MCreateCampaign a g) w' evs
| me_claim a index amount proof tr m c vt dt fee w' evs :
    claim_facts E sg a index amount proof w w' evs tr m c vt dt fee ->
    merkle_effect E sg w (MClaim a index amount proof) w' evs
| me_clawback a amount m c vt dt w' evs :
    clawback_facts E sg a amount w w' evs m c vt dt ->
    merkle_effect E sg w (MClawback a amount) w' evs
| me_fees a tr n w' : fa_collector a ∈ sg -> wdat w !! fa_treasury a = Some (DMerkleTreasury tr) ->
    fa_collector a = tr_fee_collector tr ->
    create_program_address E PMerkle [s_TREASURY] (tr_bump tr) = Some (fa_treasury a) ->
    n = lam w (fa_treasury a) - (rent_min E TREASURY_SPACE + COLLECT_BUFFER) -> 0 < n ->
    move_lamports (fa_treasury a) (fa_recipient a) n w = Ok w' ->
    merkle_effect E sg w (MCollectFees a) w' [EvMerkleFees n (fa_collector a) (fa_recipient a)].

Lemma merkle_exec_effect E sg ix w w' evs : merkle_exec E sg ix w = Ok (w', evs) ->
  merkle_ix_ok ix = true /\ merkle_effect E sg w ix w' evs.
Proof.
  unfold merkle_exec. intros H. inv_all H. split; [done|]. destruct ix.
  - apply m_initialize_inv in H as (b & ? & ? & ? & ? & ? & ? & ->). by eapply me_initialize.
  - apply create_campaign_inv in H as (m & b & ? & ? & ? & ? & ? & ? & ? & ? & ? & ? & ?).
    by eapply me_create.
  - apply claim_inv in H as (tr & m & c & vt & dt & fee & H). by eapply me_claim.
  - apply clawback_inv in H as (m & c & vt & dt & H). by eapply me_clawback.
  - apply merkle_collect_fees_inv in H as (tr & n & ? & ? & ? & ? & -> & ? & ? & ->). by eapply me_fees.
Qed.

(** ** Frames *)

Lemma lockup_frame E sg ix w w' evs : env_ok E -> signers_ok E sg -> lockup_exec E sg ix w = Ok (w', evs) ->
  exists S, frame E PLockup S w w' /\ pda_of E PMerkle S = false.
Proof.
  intros HE Hsg H. pose proof H as H0. apply lockup_exec_effect in H0 as [Hok Heff].
  unfold lockup_exec in H. rewrite Hok in H. cbn [ensure rbind] in H.
  destruct Heff as [a f p c tb nb ? F|? a p ct nc cm dm sb s nm c0 c1 ? ? Hix Hargs F|a s st ? ? Hs|a m s vt dt st ? ? F
    |? a am tr m nt s s' vt dt fee wd ? ? Hix Ham F|a tr n ? Hc].
  - exists (ia_initializer a). split; [by eapply initialize_frame|]. by apply Hsg, (if_signer _ _ _ _ _ _ _ _ _ _ F).
  - exists (ca_creator a). split; [eapply create_frame; [done| |exact F]; apply Hargs|].
    by apply Hsg, (rf_signer _ _ _ _ _ _ _ _ _ _ _ _ _ _ _ _ F).
  - exists (ra_sender a). split; [by eapply renounce_frame|]. by apply Hsg.
  - exists (xa_stream a). split; [by eapply cancel_frame|].
    pose proof (cf_stream_addr _ _ _ _ _ _ _ _ _ _ _ F) as Ha. apply cpa_pda in Ha as [? _]; [|done].
    by eapply pda_ne.
  - exists (wa_stream a). split.
    + destruct Hix as [->|[-> ->]]; [eapply withdraw_frame; [done| |exact H]; lia|].
      apply withdraw_max_eq in H as (wd' & _ & H). 
      pose proof H as H1. apply withdraw_inv in H1 as (?&?&?&?&?&?&?&?&?&F').
      pose proof (wf_evs _ _ _ _ _ _ _ _ _ _ _ _ _ _ _ _ F) as E1.
      pose proof (wf_evs _ _ _ _ _ _ _ _ _ _ _ _ _ _ _ _ F') as E2. rewrite E1 in E2. injection E2 as _ <-.
      eapply withdraw_frame; [done| |exact H]. lia.
    + pose proof (wf_stream_addr _ _ _ _ _ _ _ _ _ _ _ _ _ _ _ _ F) as Ha. apply cpa_pda in Ha as [? _]; [|done].
      by eapply pda_ne.
  - exists (fa_collector a). split; [|by apply Hsg]. eapply fees_frame; [by left|done|done| |done]. lia.
Qed.

Lemma merkle_frame E sg ix w w' evs : env_ok E -> signers_ok E sg -> merkle_exec E sg ix w = Ok (w', evs) ->
  exists S, frame E PMerkle S w w' /\ pda_of E PLockup S = false.
Proof.
  intros HE Hsg H. pose proof H as H0. apply merkle_exec_effect in H0 as [Hok Heff].
  unfold merkle_exec in H. rewrite Hok in H. cbn [ensure rbind] in H.
  destruct Heff as [i t f p c b ? Hi|a g m b c ? ? Hi|a i am pf tr m c vt dt fee ? ? F|a am m c vt dt ? ? F|a tr n ? Hc].
  - exists i. split; [by eapply m_initialize_frame|]. by apply Hsg.
  - exists (na_creator a). split; [by eapply create_campaign_frame|]. by apply Hsg.
  - exists (la_campaign a). split; [eapply claim_frame; [done| |done]; unfold merkle_ix_ok in Hok; ranges; lia|].
    pose proof (lf_seeds _ _ _ _ _ _ _ _ _ _ _ _ _ _ _ F) as Ha. apply cpa_pda in Ha as [? _]; [|done]. by eapply pda_ne.
  - exists (ba_campaign a). split; [eapply clawback_frame; [done| |done]; unfold merkle_ix_ok in Hok; ranges; lia|].
    pose proof (bf_seeds _ _ _ _ _ _ _ _ _ _ _ F) as Ha. apply cpa_pda in Ha as [? _]; [|done]. by eapply pda_ne.
  - exists (fa_collector a). split; [|by apply Hsg]. eapply fees_frame; [by right|done|done| |done]. lia.
Qed.

(** ** What every step keeps *)

Definition is_lockup (a : action) : bool := match a with ALockup _ _ => true | _ => false end.
Definition is_merkle (a : action) : bool := match a with AMerkle _ _ => true | _ => false end.

Record step_kept (E : env) (w w' : world) (a : action) : Prop := {
  sk_lockup : is_lockup a = false -> untouched E PLockup w w';
  sk_merkle : is_merkle a = false -> untouched E PMerkle w w';
  sk_sealed : sealed_mints_kept E w w';
  sk_token : token_sane E w' }.

Lemma step_keeps E C w a evs w' : env_ok E -> token_sane E w -> step E C w a evs w' -> step_kept E w w' a.
Proof.
  intros HE Hs [sg ix ? ? Hsg H|sg ix ? ? Hsg H|? [] _].
  - destruct (lockup_frame _ _ _ _ _ _ HE Hsg H) as (S & F & HS). split; try done.
    + intros _. eapply frame_untouched; [done|exact F|done|by right|done].
    + by eapply frame_sealed.
    + by apply (fr_sane _ _ _ _ _ F).
  - destruct (merkle_frame _ _ _ _ _ _ HE Hsg H) as (S & F & HS). split; try done.
    + intros _. eapply frame_untouched; [done|exact F|done|by left|done].
    + by eapply frame_sealed.
    + by apply (fr_sane _ _ _ _ _ F).
  - by split.
Qed.

Lemma run_sane E C w0 tr w : env_ok E -> token_sane E w0 -> run E C w0 tr w -> token_sane E w.
Proof. intros HE H0 Hr. induction Hr; [done|]. by eapply sk_token, step_keeps. Qed.
