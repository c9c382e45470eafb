(** The invariant of Lockup's accounts, kept by every step. *)
From Verif Require Export StreamStep.

(** ** All streams of a world *)
Definition as_stream (d : adata) : option stream_data := match d with DStream s => Some s | _ => None end.
Definition streams (w : world) : gmap key stream_data := omap as_stream (wdat w).

Lemma streams_lookup w k s : streams w !! k = Some s <-> wdat w !! k = Some (DStream s).
Proof.
  unfold streams. rewrite lookup_omap. destruct (wdat w !! k) as [d|]; simpl; [|done].
  destruct d; simpl; split; congruence.
Qed.
Lemma streams_ext w w' : (forall k s, wdat w !! k = Some (DStream s) <-> wdat w' !! k = Some (DStream s)) -> streams w = streams w'.
Proof.
  intros H. apply map_eq. intros k. apply option_eq. intros s. rewrite !streams_lookup. apply H.
Qed.
(** The number of streams only depends on which addresses hold one. *)
Lemma streams_size w w' : (forall k, (exists s, wdat w !! k = Some (DStream s)) <-> (exists s, wdat w' !! k = Some (DStream s))) ->
  size (streams w) = size (streams w').
Proof.
  intros H. rewrite <-!size_dom. f_equal. apply set_eq. intros k. rewrite !elem_of_dom. unfold is_Some.
  split; intros [s Hs]; apply streams_lookup in Hs; destruct (H k) as [H1 H2].
  - destruct H1 as [s' ?]; [eauto|]. exists s'. by apply streams_lookup.
  - destruct H2 as [s' ?]; [eauto|]. exists s'. by apply streams_lookup.
Qed.

(** ** The invariant *)

Record stream_inv (E : env) (w : world) (k : key) (s : stream_data) : Prop := {
  si_ok : stream_ok s;
  si_keys : key_ok (s_mint s) /\ key_ok (s_sender s) /\ 0 <= s_salt s <= U128_MAX;
  si_nft : exists nft b m au,
    find_program_address E PLockup (nft_mint_seeds (s_sender s) (s_salt s)) = Ok (nft, b) /\
    find_program_address E PLockup (stream_seeds nft) = Ok (k, s_bump s) /\
    wdat w !! nft = Some (DMint m) /\ m_authority m = Some au /\ pda_of E PMetadata au = true /\ m_supply m <= 1;
  si_vault : exists tp v vt,
    ata_address E k (s_mint s) tp = Ok v /\ wdat w !! v = Some (DToken vt) /\
    t_owner vt = k /\ t_mint vt = s_mint s /\ t_prog vt = tp /\
    (plain E (s_mint s) = true -> deposited (s_amounts s) - withdrawn (s_amounts s) - refunded (s_amounts s) <= t_amount vt) }.

Record treasury_inv (E : env) (p : program) (w : world) (k : key) (t : treasury) : Prop := {
  ti_addr : find_program_address E p [s_TREASURY] = Ok (k, tr_bump t);
  ti_keys : key_ok (tr_fee_collector t) /\ key_ok (tr_chainlink_program t) /\ key_ok (tr_chainlink_feed t);
  ti_rent : rent_min E TREASURY_SPACE <= lam w k }.

Record lockup_inv (E : env) (w : world) : Prop := {
  li_stream : forall k s, wdat w !! k = Some (DStream s) -> stream_inv E w k s;
  li_treasury : forall k t, wdat w !! k = Some (DLockupTreasury t) -> treasury_inv E PLockup w k t;
  li_coll : forall k n, wdat w !! k = Some (DNftCollection n) ->
    find_program_address E PLockup [s_NFT_COLLECTION_DATA] = Ok (k, nc_bump n) /\
    nc_total_supply n = Z.of_nat (size (streams w));
  li_nocoll : (forall k s, wdat w !! k <> Some (DStream s)) \/ exists k n, wdat w !! k = Some (DNftCollection n) }.

(** ** Vaults in a payout *)
Lemma payout_token E w D own d0 newd vault dest vt dt amount tp mintk owner auth w' k t : env_ok E ->
  payout_facts E w D own newd vault dest vt dt amount tp mintk owner auth w' ->
  wdat w !! vault = Some (DToken vt) -> (forall i, wdat w !! i <> None -> D !! i = wdat w !! i) ->
  wdat w !! own = Some d0 -> is_token d0 = false -> 0 <= amount ->
  wdat w !! k = Some (DToken t) ->
  exists t', wdat w' !! k = Some (DToken t') /\ same_account t t' /\ t_amount t - amount <= t_amount t'.
Proof.
  intros HE F Hv HD Ho Hd0 Ha Hk. pose proof (received_range E mintk vault dest (wclock w) amount HE Ha).
  rewrite (ds_dat _ _ _ (pf_step _ _ _ _ _ _ _ _ _ _ _ _ _ _ _ F)).
  assert (own <> k) by (intros ->; rewrite Ho in Hk; injection Hk as ->; done).
  assert (own <> vault) by (intros ->; rewrite Ho in Hv; injection Hv as ->; done).
  unfold payout. case_decide as Hvd.
  - rewrite lookup_insert_ne by done. exists t. rewrite HD by congruence. split_and!; try done; lia.
  - rewrite lookup_ins. case_decide as Hdk.
    + subst k. destruct (pf_dest _ _ _ _ _ _ _ _ _ _ _ _ _ _ _ F) as [Hd|[Hd _]]; [|congruence].
      rewrite Hk in Hd. injection Hd as <-. eexists. split; [done|]. split; [done|]. simpl. lia.
    + rewrite lookup_ins. case_decide as Hvk.
      * subst k. rewrite Hv in Hk. injection Hk as <-. eexists. split; [done|]. split; [done|]. simpl. lia.
      * rewrite lookup_insert_ne by done. exists t. rewrite HD by congruence. split_and!; try done; lia.
Qed.

(** ** Kept by steps of others *)

Lemma untouched_streams E w w' k s : untouched E PLockup w w' -> wdat w !! k = Some (DStream s) <-> wdat w' !! k = Some (DStream s).
Proof. intros []. split; intros Hk; [by eapply u_data|by eapply u_new]. Qed.

Lemma untouched_stream_inv E w w' k s : env_ok E -> untouched E PLockup w w' -> sealed_mints_kept E w w' ->
  stream_inv E w k s -> stream_inv E w' k s.
Proof.
  intros HE Hu Hs [Hok Hkeys (nft & b & m & au & Hnft & Hk & Hm & Ha & Hp & ?) (tp & v & vt & Hat & Hv & Ho & Hmi & Htp & Hge)].
  split; [done|done|..].
  - destruct (Hs _ _ _ Hm Ha Hp (eo_nft _ HE _ (proj1 (fpa_pda _ _ _ _ _ HE Hnft)))) as (m' & ? & ? & ? & ? & ?).
    exists nft, b, m', au. split_and!; try done. lia.
  - assert (pda_of E PLockup (t_owner vt) = true) by (rewrite Ho; by apply fpa_pda in Hk as [? _]).
    destruct (u_vault _ _ _ _ Hu _ _ Hv) as (t' & ? & ? & ? & ? & ?); [done|rewrite Ho, Hmi, Htp; exact Hat|].
    exists tp, v, t'. split_and!; try congruence. intros Hpl. specialize (Hge Hpl). rewrite <-Hmi in Hpl. match goal with H : plain _ _ = true -> _ <= _ |- _ => specialize (H Hpl) end. lia.
Qed.

Lemma untouched_lockup_inv E w w' : env_ok E -> untouched E PLockup w w' -> sealed_mints_kept E w w' ->
  lockup_inv E w -> lockup_inv E w'.
Proof.
  intros HE Hu Hs [Hst Htr Hco Hno]. pose proof (fun k s => untouched_streams E w w' k s Hu) as Hiff. split.
  - intros k s Hk. eapply untouched_stream_inv; [done..|]. apply Hst. by apply Hiff.
  - intros k t Hk. pose proof (u_new _ _ _ _ Hu _ _ Hk eq_refl) as Hk0. destruct (Htr _ _ Hk0) as [? ? Hl].
    split; [done|done|]. destruct (u_data _ _ _ _ Hu _ _ Hk0 eq_refl) as [_ ?]. lia.
  - intros k n Hk. rewrite <-(streams_ext w w') by done. apply Hco. by apply (u_new _ _ _ _ Hu).
  - destruct Hno as [Hno|(k & n & Hk)].
    + left. intros k s Hk. apply Hiff in Hk. by eapply Hno.
    + right. exists k, n. by apply (u_data _ _ _ _ Hu).
Qed.

(** ** Kept by Lockup's own instructions *)

Lemma fpa_fun E p s k b k' b' : find_program_address E p s = Ok (k, b) -> find_program_address E p s = Ok (k', b') -> k = k' /\ b = b'.
Proof. intros H1 H2. rewrite H1 in H2. by injection H2. Qed.

(** Terms that never change. *)
Definition same_terms (s s' : stream_data) : Prop :=
  s_sender s' = s_sender s /\ s_mint s' = s_mint s /\ s_salt s' = s_salt s /\ s_bump s' = s_bump s /\
  s_times s' = s_times s /\ deposited (s_amounts s') = deposited (s_amounts s) /\
  start_unlock (s_amounts s') = start_unlock (s_amounts s) /\ cliff_unlock (s_amounts s') = cliff_unlock (s_amounts s).

Lemma same_terms_refl s : same_terms s s.
Proof. done. Qed.
Lemma same_terms_trans s1 s2 s3 : same_terms s1 s2 -> same_terms s2 s3 -> same_terms s1 s3.
Proof. unfold same_terms. intros (?&?&?&?&?&?&?&?) (?&?&?&?&?&?&?&?). split_and!; congruence. Qed.

Lemma stream_change_terms E sg w w' evs k s ix s' : stream_change E sg w w' evs k s ix s' -> same_terms s s'.
Proof.
  intros [? Hp|a st ? ? ? ? ? ? Hp|a m vt dt st ? F Hp|? a am tr m nt ? vt dt fee wd Hix Ham ? F Hp]; try done.
  pose proof (wf_new _ _ _ _ _ _ _ _ _ _ _ _ _ _ _ _ F) as Hn. apply stream_withdraw_ok in Hn as (_ & _ & ->). done.
Qed.

(** A change of stream [k] spends at most what it reports from the accounts [k] owns. *)
Lemma stream_change_vault E sg w w' evs k s ix s' v t : env_ok E -> signers_ok E sg ->
  lockup_exec E sg ix w = Ok (w', evs) -> wdat w !! k = Some (DStream s) -> stream_ok s -> pda_of E PLockup k = true ->
  stream_change E sg w w' evs k s ix s' -> wdat w !! v = Some (DToken t) -> t_owner t = k ->
  exists t', wdat w' !! v = Some (DToken t') /\ same_account t t' /\ t_amount t - paid_out k evs <= t_amount t'.
Proof.
  intros HE Hsg Hex Hk Hok Hpda Hch Hv Ho.
  destruct Hch as [? Hp|a st ? ? ? ? ? ? Hp|a m vt dt st ? F Hp|? a am tr m nt ? vt dt fee wd Hix Ham ? F Hp].
  - (* the stream is not the one acted on *)
    apply lockup_exec_effect in Hex as Heff. destruct Heff as [Hixok Heff].
    assert (Hfr : exists S, frame E PLockup S w w' /\ S <> k).
    { unfold lockup_exec in Hex. rewrite Hixok in Hex. cbn [ensure rbind] in Hex.
      assert (Hsne : forall x, x ∈ sg -> x <> k) by (intros x Hx ->; destruct (Hsg _ Hx); congruence).
      destruct Heff as [a f p c tb nb ? F|? a p ct nc cm dm sb s1 nm c0 c1 ? ? Hix Hargs F|a s1 st ? ? Hsi Hse Hs ? ? ? ? Hw Hev|a m s1 vt dt st ? ? F
      |? a am tr m nt s1 s' vt dt fee wd ? ? Hix Ham F|a tr n ? Hc Htr Hcc Hca Hnn Hnpos Hmv].
      - exists (ia_initializer a). split; [by eapply initialize_frame|]. apply Hsne, (if_signer _ _ _ _ _ _ _ _ _ _ F).
      - exists (ca_creator a). split; [eapply create_frame; [done| |exact F]; apply Hargs|].
        apply Hsne, (rf_signer _ _ _ _ _ _ _ _ _ _ _ _ _ _ _ _ F).
      - exists (ra_sender a). split; [by eapply renounce_frame|]. by apply Hsne.
      - exists (xa_stream a). split; [by eapply cancel_frame|]. intros Heq.
        rewrite (cf_evs _ _ _ _ _ _ _ _ _ _ _ F) in Hp. simpl in Hp. rewrite Heq, Z.eqb_refl in Hp.
        pose proof (cf_lt _ _ _ _ _ _ _ _ _ _ _ F). lia.
      - exists (wa_stream a). split.
        + destruct Hix as [->|[-> ->]]; [eapply withdraw_frame; [done| |exact Hex]; lia|].
          apply withdraw_max_eq in Hex as (wd' & _ & H). 
          pose proof H as H1. apply withdraw_inv in H1 as (?&?&?&?&?&?&?&?&?&F').
          pose proof (wf_evs _ _ _ _ _ _ _ _ _ _ _ _ _ _ _ _ F) as E1.
          pose proof (wf_evs _ _ _ _ _ _ _ _ _ _ _ _ _ _ _ _ F') as E2. rewrite E1 in E2. injection E2 as _ <-.
          eapply withdraw_frame; [done| |exact H]. lia.
        + intros Heq. rewrite (wf_evs _ _ _ _ _ _ _ _ _ _ _ _ _ _ _ _ F) in Hp. simpl in Hp. rewrite Heq, Z.eqb_refl in Hp. lia.
      - exists (fa_collector a). split; [|by apply Hsne]. eapply fees_frame; [by left|done|done| |done]. lia. }
    destruct Hfr as (S & F & HS). destruct (fr_tokens _ _ _ _ _ F _ _ Hv) as (t' & ? & ? & Hle).
    exists t'. split_and!; try done. rewrite Hp. specialize (Hle ltac:(congruence)). lia.
  - unfold lockup_exec in Hex. inv_all Hex. apply renounce_inv in Hex as (s1 & st1 & ? & ? & Hs1 & _ & _ & _ & _ & _ & -> & _).
    exists t. rewrite wdat_set_dat. rewrite lookup_insert_ne by congruence. split_and!; try done. lia.
  - subst k. rewrite Hp. pose proof (cf_lt _ _ _ _ _ _ _ _ _ _ _ F).
    eapply payout_token; [done|apply (cf_pay _ _ _ _ _ _ _ _ _ _ _ F)|apply (cf_vault _ _ _ _ _ _ _ _ _ _ _ F)|done|exact Hk|done|lia|done].
  - subst k. rewrite Hp.
    eapply payout_token; [done|apply (wf_pay _ _ _ _ _ _ _ _ _ _ _ _ _ _ _ _ F)|apply (wf_vault _ _ _ _ _ _ _ _ _ _ _ _ _ _ _ _ F)|done|exact Hk|done|lia|done].
Qed.

Lemma lockup_stream_inv E sg ix w w' evs k s s' : env_ok E -> signers_ok E sg -> token_sane E w ->
  lockup_exec E sg ix w = Ok (w', evs) -> wdat w !! k = Some (DStream s) -> stream_inv E w k s ->
  stream_change E sg w w' evs k s ix s' -> stream_inv E w' k s'.
Proof.
  intros HE Hsg Hsane Hex Hk [Hok Hkeys (nft & b & m & au & Hnft & Hka & Hm & Ha & Hp & ?) (tp & v & vt & Hat & Hv & Ho & Hmi & Htp & Hge)] Hch.
  destruct (stream_change_ok _ _ _ _ _ _ _ _ _ Hok Hch) as (Hok' & Hsum & Hpos).
  destruct (stream_change_terms _ _ _ _ _ _ _ _ _ Hch) as (T1 & T2 & T3 & T4 & T5 & T6 & T7 & T8).
  split; rewrite ?T1, ?T2, ?T3, ?T4; try done.
  - destruct (lockup_frame _ _ _ _ _ _ HE Hsg Hex) as (S & F & _).
    destruct (frame_sealed _ _ _ _ _ F _ _ _ Hm Ha Hp (eo_nft _ HE _ (proj1 (fpa_pda _ _ _ _ _ HE Hnft)))) as (m' & ? & ? & ? & ? & ?).
    exists nft, b, m', au. split_and!; try done. lia.
  - assert (pda_of E PLockup k = true) by (by apply fpa_pda in Hka as [? _]).
    destruct (stream_change_vault _ _ _ _ _ _ _ _ _ v vt HE Hsg Hex Hk Hok ltac:(done) Hch Hv Ho) as (t' & ? & (? & ? & ? & ?) & ?).
    exists tp, v, t'. split_and!; try congruence. intros Hpl. specialize (Hge Hpl). lia.
Qed.

Lemma lockup_create_inv E sg a p w w' evs ct nc cm dm sb s name c0 c1 : env_ok E -> create_args_ok p ->
  key_ok (ca_deposit_mint a) -> key_ok (ca_sender a) ->
  create_facts E sg a p w w' evs ct nc cm dm sb s name c0 c1 -> stream_inv E w' (ca_stream a) s.
Proof.
  intros HE Hargs Hkm Hks F. pose proof (create_effects _ _ _ _ _ _ _ _ _ _ _ _ _ _ _ _ F) as Hc.
  destruct F, Hc. subst s. split.
  - by apply stream_create_ok.
  - simpl. split_and!; try done; apply Hargs.
  - destruct rf_nft_mint_addr as [b Hb]. destruct rf_edition_addr as [eb Heb]. 
    eexists (ca_nft_mint a), b, _, (ca_edition a).
    split; [exact Hb|]. split; [exact rf_stream_addr|]. split; [exact ce_nft|]. split; [done|]. split; [|done].
    by apply fpa_pda in Heb as [? _].
  - eexists (ca_deposit_tp a), (ca_vault a), _. split; [exact rf_vault_addr|]. split; [exact ce_vault|]. simpl. split_and!; try done.
    intros Hpl. rewrite received_plain by exact Hpl. lia.
Qed.

(** Accounts of Lockup that are not streams. *)
Lemma payout_non_own E w D own newd vault dest vt dt amount tp mintk owner auth w' k d :
  payout_facts E w D own newd vault dest vt dt amount tp mintk owner auth w' ->
  wdat w !! vault = Some (DToken vt) -> (forall i, wdat w !! i <> None -> D !! i = wdat w !! i) ->
  is_token d = false -> k <> own -> wdat w !! k = Some d -> wdat w' !! k = Some d.
Proof.
  intros F Hv HD Hnt Hne Hk. rewrite (ds_dat _ _ _ (pf_step _ _ _ _ _ _ _ _ _ _ _ _ _ _ _ F)).
  rewrite payout_lookup_other; [rewrite HD; congruence|done| |].
  - intros ->. rewrite Hv in Hk. injection Hk as <-. done.
  - intros ->. destruct (pf_dest _ _ _ _ _ _ _ _ _ _ _ _ _ _ _ F) as [Hd|[Hd _]]; rewrite Hk in Hd; [injection Hd as ->; done|done].
Qed.

(** The data a Lockup instruction leaves at an address, streams aside. *)
Definition is_streamd (d : adata) : bool := match d with DStream _ => true | _ => false end.
Lemma payout_kept E w own d0 newd vault dest vt dt amount tp mintk owner auth w' k d :
  payout_facts E w (wdat w) own newd vault dest vt dt amount tp mintk owner auth w' ->
  wdat w !! vault = Some (DToken vt) -> wdat w !! own = Some d0 -> is_streamd d0 = true -> is_streamd newd = true ->
  is_token d = false -> is_streamd d = false -> (wdat w !! k = Some d <-> wdat w' !! k = Some d).
Proof.
  intros F Hv Ho Hd0 Hn Ht Hs. split.
  - intros Hk. eapply payout_non_own; [exact F|done|done|done|congruence|done].
  - intros Hk. destruct (payout_back _ _ _ _ _ _ _ _ _ _ _ _ _ _ _ _ _ F Hk Ht) as [[-> ->]|?]; [congruence|done].
Qed.

Lemma lockup_treasury E sg ix w w' evs k t : lockup_effect E sg w ix w' evs -> wdat w' !! k = Some (DLockupTreasury t) ->
  wdat w !! k = Some (DLockupTreasury t) /\
    (lam w k <= lam w' k \/ rent_min E TREASURY_SPACE + COLLECT_BUFFER <= lam w' k) \/
  exists a f p c, ix = LInitialize a f p c /\ k = ia_treasury a /\ wdat w !! k = None /\
    find_program_address E PLockup [s_TREASURY] = Ok (k, tr_bump t) /\ rent_min E TREASURY_SPACE <= lam w' k /\
    tr_fee_collector t = f /\ tr_chainlink_program t = p /\ tr_chainlink_feed t = c.
Proof.
  intros Heff Hk.
  destruct Heff as [a f p c tb nb ? F|? a p ct nc cm dm sb s1 nm c0 c1 ? ? Hix Hargs F|a s1 st ? ? Hsi Hse Hs ? ? ? ? -> ->|a m s1 vt dt st ? ? F
      |? a am tr m nt s1 s' vt dt fee wd ? ? Hix Ham F|a tr n ? Hc Htr ? ? -> ? Hmv].
  - destruct F. pose proof (ds_mono _ _ _ if_step) as Hl. rewrite !Forall_cons in if_fresh. destruct if_fresh as (? & _).
    rewrite (ds_dat _ _ _ if_step) in Hk. do 5 (apply lookup_insert_Some in Hk as [[_ ?]|[_ Hk]]; [discriminate|]).
    apply lookup_insert_Some in Hk as [[<- [= <-]]|[_ Hk]].
    + right. by exists a, f, p, c.
    + left. split; [done|]. left. apply Hl. congruence.
  - left. pose proof (create_effects _ _ _ _ _ _ _ _ _ _ _ _ _ _ _ _ F) as Hc.
    pose proof (ds_mono _ _ _ (rf_step _ _ _ _ _ _ _ _ _ _ _ _ _ _ _ _ F)) as Hl.
    pose proof (rf_coll_md_kind _ _ _ _ _ _ _ _ _ _ _ _ _ _ _ _ F) as (? & ? & ? & ? & ? & ? & _ & Hc1).
    assert (Hk0 : wdat w !! k = Some (DLockupTreasury t)).
    { destruct Hc. rewrite <-ce_other; [done|]. rewrite !not_elem_of_cons. split_and!; try congruence. apply not_elem_of_nil. }
    split; [done|]. left. apply Hl. congruence.
  - left. rewrite wdat_set_dat in Hk. apply lookup_insert_Some in Hk as [[_ ?]|[_ Hk]]; [discriminate|].
    split; [done|]. left. rewrite lam_set_dat. lia.
  - left. assert (Hk0 : wdat w !! k = Some (DLockupTreasury t)).
    { eapply payout_kept; [apply (cf_pay _ _ _ _ _ _ _ _ _ _ _ F)|apply (cf_vault _ _ _ _ _ _ _ _ _ _ _ F)|apply (cf_stream _ _ _ _ _ _ _ _ _ _ _ F)|done..]. }
    split; [done|]. left. apply (ds_mono _ _ _ (pf_step _ _ _ _ _ _ _ _ _ _ _ _ _ _ _ (cf_pay _ _ _ _ _ _ _ _ _ _ _ F))). congruence.
  - left. assert (Hk0 : wdat w !! k = Some (DLockupTreasury t)).
    { eapply payout_kept; [apply (wf_pay _ _ _ _ _ _ _ _ _ _ _ _ _ _ _ _ F)|apply (wf_vault _ _ _ _ _ _ _ _ _ _ _ _ _ _ _ _ F)|apply (wf_stream _ _ _ _ _ _ _ _ _ _ _ _ _ _ _ _ F)|done..]. }
    split; [done|]. left. apply (ds_mono _ _ _ (pf_step _ _ _ _ _ _ _ _ _ _ _ _ _ _ _ (wf_pay _ _ _ _ _ _ _ _ _ _ _ _ _ _ _ _ F))). congruence.
  - left. apply move_lamports_ok in Hmv as (Hd & _ & _ & ? & Hne & Heq & Hoth). rewrite Hd in Hk. split; [done|].
    destruct (decide (fa_treasury a = fa_recipient a)) as [He|He].
    + left. destruct (decide (k = fa_treasury a)) as [->|]; [by rewrite Heq by done|]. rewrite Hoth; [lia|done|congruence].
    + destruct (Hne He) as [Hx1 Hx2]. destruct (decide (k = fa_treasury a)) as [->|]; [right; lia|]. left.
      destruct (decide (k = fa_recipient a)) as [->|]; [lia|]. rewrite Hoth; [lia|done|done].
Qed.

Lemma lockup_collection E sg ix w w' evs k n : lockup_effect E sg w ix w' evs -> wdat w' !! k = Some (DNftCollection n) ->
  (wdat w !! k = Some (DNftCollection n) /\
    ((forall k' s, wdat w' !! k' = Some (DStream s) -> exists s0, wdat w !! k' = Some (DStream s0)) \/
     exists k0 n0, k0 <> k /\ wdat w !! k0 = Some (DNftCollection n0))) \/
  (exists a f p c, ix = LInitialize a f p c /\ k = ia_nft_collection_data a /\ wdat w !! k = None /\
    find_program_address E PLockup [s_NFT_COLLECTION_DATA] = Ok (k, nc_bump n) /\ nc_total_supply n = 0) \/
  (exists a p ct nc cm dm sb s name c0 c1, create_facts E sg a p w w' evs ct nc cm dm sb s name c0 c1 /\
    k = ca_nft_collection_data a /\ wdat w !! k = Some (DNftCollection nc) /\ nc_bump n = nc_bump nc /\
    nc_total_supply n = nc_total_supply nc + 1).
Proof.
  intros Heff Hk.
  assert (Hnew : forall k' s, wdat w' !! k' = Some (DStream s) -> (exists s0, wdat w !! k' = Some (DStream s0)) \/
     exists a p ct nc cm dm sb name c0 c1,
    (ix = LCreateTs a p \/ exists q, ix = LCreateDur a q /\ p = dur_args q (get_current_time w)) /\
    create_args_ok p /\ create_facts E sg a p w w' evs ct nc cm dm sb s name c0 c1 /\ k' = ca_stream a).
  { intros k' s. by apply lockup_new_stream. }
  destruct Heff as [a f p c tb nb ? F|? a p ct nc cm dm sb s1 nm c0 c1 ? ? Hix Hargs F|a s1 st ? ? Hsi Hse Hs ? ? ? ? -> ->|a m s1 vt dt st ? ? F
      |? a am tr m nt s1 s' vt dt fee wd ? ? Hix Ham F|a tr n' ? Hc Htr ? ? -> ? Hmv];
  [assert (Hold : forall k' s, wdat w' !! k' = Some (DStream s) -> exists s0, wdat w !! k' = Some (DStream s0))
     by (intros k' s' Hs'; destruct (Hnew _ _ Hs') as [?|(?&?&?&?&?&?&?&?&?&?&[?|(?&?&_)]&_)]; [done|done|done])
  | clear Hnew
  |assert (Hold : forall k' s, wdat (set_dat (ra_stream a) (DStream (stream_renounce s1)) w) !! k' = Some (DStream s) -> exists s0, wdat w !! k' = Some (DStream s0))
     by (intros k' s' Hs'; destruct (Hnew _ _ Hs') as [?|(?&?&?&?&?&?&?&?&?&?&[?|(?&?&_)]&_)]; [done|done|done])
  |assert (Hold : forall k' s, wdat w' !! k' = Some (DStream s) -> exists s0, wdat w !! k' = Some (DStream s0))
     by (intros k' s' Hs'; destruct (Hnew _ _ Hs') as [?|(?&?&?&?&?&?&?&?&?&?&[?|(?&?&_)]&_)]; [done|done|done])
  |assert (Hold : forall k' s, wdat w' !! k' = Some (DStream s) -> exists s0, wdat w !! k' = Some (DStream s0))
     by (intros k' s'' Hs'; destruct (Hnew _ _ Hs') as [?|(?&?&?&?&?&?&?&?&?&?&[?|(?&?&_)]&_)]; [done|destruct Hix as [->|[-> _]]; done..])
  |assert (Hold : forall k' s, wdat w' !! k' = Some (DStream s) -> exists s0, wdat w !! k' = Some (DStream s0))
     by (intros k' s' Hs'; destruct (Hnew _ _ Hs') as [?|(?&?&?&?&?&?&?&?&?&?&[?|(?&?&_)]&_)]; [done|done|done])].
  - destruct F. rewrite !Forall_cons in if_fresh. destruct if_fresh as (? & ? & _).
    rewrite (ds_dat _ _ _ if_step) in Hk. do 4 (apply lookup_insert_Some in Hk as [[_ ?]|[_ Hk]]; [discriminate|]).
    apply lookup_insert_Some in Hk as [[<- [= <-]]|[_ Hk]].
    + right; left. by exists a, f, p, c.
    + left. apply lookup_insert_Some in Hk as [[_ ?]|[_ Hk]]; [discriminate|]. split; [done|]. by left.
  - pose proof (create_effects _ _ _ _ _ _ _ _ _ _ _ _ _ _ _ _ F) as Hc.
    destruct (decide (k = ca_nft_collection_data a)) as [->|Hne].
    + right; right. exists a, p, ct, nc, cm, dm, sb, s1, nm, c0, c1. split; [done|].
      rewrite (ce_nc _ _ _ _ _ _ _ _ _ Hc) in Hk. injection Hk as <-. split_and!; try done. apply (rf_nc _ _ _ _ _ _ _ _ _ _ _ _ _ _ _ _ F).
    + left. pose proof (rf_coll_md_kind _ _ _ _ _ _ _ _ _ _ _ _ _ _ _ _ F) as (? & ? & ? & ? & ? & ? & _ & Hc1).
      split.
      * destruct Hc. rewrite <-ce_other; [done|]. rewrite !not_elem_of_cons. split_and!; try congruence. apply not_elem_of_nil.
      * right. exists (ca_nft_collection_data a), nc. split; [congruence|]. apply (rf_nc _ _ _ _ _ _ _ _ _ _ _ _ _ _ _ _ F).
  - left. rewrite wdat_set_dat in Hk. apply lookup_insert_Some in Hk as [[_ ?]|[_ Hk]]; [discriminate|]. split; [done|]. by left.
  - left. split; [|by left].
    eapply payout_kept; [apply (cf_pay _ _ _ _ _ _ _ _ _ _ _ F)|apply (cf_vault _ _ _ _ _ _ _ _ _ _ _ F)|apply (cf_stream _ _ _ _ _ _ _ _ _ _ _ F)|done..].
  - left. split; [|by left].
    eapply payout_kept; [apply (wf_pay _ _ _ _ _ _ _ _ _ _ _ _ _ _ _ _ F)|apply (wf_vault _ _ _ _ _ _ _ _ _ _ _ _ _ _ _ _ F)|apply (wf_stream _ _ _ _ _ _ _ _ _ _ _ _ _ _ _ _ F)|done..].
  - left. apply move_lamports_ok in Hmv as (Hd & _). rewrite Hd in Hk. split; [done|]. by left.
Qed.

Lemma lockup_keeps_inv E sg ix w w' evs : env_ok E -> signers_ok E sg -> token_sane E w -> lockup_inv E w ->
  lockup_exec E sg ix w = Ok (w', evs) -> lockup_inv E w'.
Proof.
  intros HE Hsg Hsane [Hst Htr Hco Hno] Hex. pose proof Hex as Hex0. apply lockup_exec_effect in Hex0 as [Hix Heff].
  assert (Hkeep : forall k s, wdat w !! k = Some (DStream s) -> exists s', wdat w' !! k = Some (DStream s')).
  { intros k s Hk. destruct (lockup_stream _ _ _ _ _ _ _ _ Heff Hk) as (s' & ? & _). eauto. }
  split.
  - intros k s' Hk'. destruct (lockup_new_stream _ _ _ _ _ _ _ _ Heff Hk')
      as [[s Hk]|(a & p & ct & nc & cm & dm & sb & nm & c0 & c1 & Hixx & Hargs & F & ->)].
    + destruct (lockup_stream _ _ _ _ _ _ _ _ Heff Hk) as (s1 & Hk1 & Hch). rewrite Hk' in Hk1. injection Hk1 as <-.
      eapply lockup_stream_inv; [done..|apply Hst; exact Hk|exact Hch].
    + eapply lockup_create_inv; [done|done|..|exact F];
        destruct Hixx as [->|(q & -> & _)]; unfold lockup_ix_ok, create_accs_ok in Hix; ranges; done.
  - intros k t Hk. destruct (lockup_treasury _ _ _ _ _ _ _ _ Heff Hk) as [[Hk0 Hl]|(a & f & p & c & -> & -> & ? & ? & ? & <- & <- & <-)].
    + destruct (Htr _ _ Hk0). split; [done|done|]. unfold COLLECT_BUFFER in Hl. lia.
    + split; [done| |done]. unfold lockup_ix_ok in Hix. ranges. done.
  - intros k n Hk. destruct (lockup_collection _ _ _ _ _ _ _ _ Heff Hk)
      as [[Hk0 Hcase]|[(a & f & p & c & -> & -> & Hn & Hf & Hz)|(a & p & ct & nc & cm & dm & sb & s & nm & c0 & c1 & F & -> & Hk0 & Hb & Ht)]].
    + destruct (Hco _ _ Hk0) as [Hf ->]. split; [done|]. f_equal. apply streams_size. intros k'.
      destruct Hcase as [Hold|(k0 & n0 & Hne & Hk0')].
      * split; intros [s Hs]; eauto.
      * destruct (Hco _ _ Hk0') as [Hf' _]. destruct Hne. by destruct (fpa_fun _ _ _ _ _ _ _ Hf' Hf).
    + split; [done|]. rewrite Hz. destruct Hno as [Hno|(k0 & n0 & Hk0)].
      * assert (streams w' = ∅) as ->; [|done]. apply map_eq. intros k'. rewrite lookup_empty.
        destruct (streams w' !! k') eqn:Hs; [|done]. apply streams_lookup in Hs.
        destruct (lockup_new_stream _ _ _ _ _ _ _ _ Heff Hs) as [[s0 ?]|(?&?&?&?&?&?&?&?&?&?&[?|(?&?&_)]&_)]; [by destruct (Hno k' s0)|done|done].
      * destruct (Hco _ _ Hk0) as [Hf' _]. destruct (fpa_fun _ _ _ _ _ _ _ Hf' Hf) as [-> _]. congruence.
    + destruct (Hco _ _ Hk0) as [Hf Hsz]. rewrite Hb. split; [done|]. rewrite Ht, Hsz.
      pose proof (create_effects _ _ _ _ _ _ _ _ _ _ _ _ _ _ _ _ F) as Hc.
      assert (Hins : streams w' = <[ca_stream a := s]> (streams w)).
      { apply map_eq. intros k'. destruct (decide (k' = ca_stream a)) as [->|Hne].
        - rewrite lookup_insert. apply streams_lookup, (ce_stream _ _ _ _ _ _ _ _ _ Hc).
        - rewrite lookup_insert_ne by done. apply option_eq. intros s2. rewrite !streams_lookup. 
          pose proof (rf_coll_md_kind _ _ _ _ _ _ _ _ _ _ _ _ _ _ _ _ F) as (? & ? & ? & ? & ? & ? & Hc0 & Hc1).
          destruct F, Hc. split; intros Hs2.
          + rewrite <-ce_other; [done|]. rewrite !not_elem_of_cons. split_and!; try congruence. apply not_elem_of_nil.
          + rewrite ce_other; [done|]. rewrite !not_elem_of_cons. split_and!; try congruence. apply not_elem_of_nil. }
      rewrite Hins, map_size_insert_None; [lia|].
      destruct (streams w !! ca_stream a) eqn:Hs; [|done]. apply streams_lookup in Hs.
      rewrite (rf_fresh_stream _ _ _ _ _ _ _ _ _ _ _ _ _ _ _ _ F) in Hs. done.
  - destruct Hno as [Hno|(k & n & Hk)].
    + destruct Heff as [a f p c tb nb ? F|? a p ct nc cm dm sb s1 nm c0 c1 ? ? Hixx Hargs F|a s1 st ? ? Hsi Hse Hs|a m s1 vt dt st ? ? F
      |? a am tr m nt s1 s' vt dt fee wd ? ? Hixx Ham F|a tr n' ? Hc Htr' ? ? -> ? Hmv].
      * left. intros k s Hk. destruct F. rewrite (ds_dat _ _ _ if_step) in Hk.
        repeat (apply lookup_insert_Some in Hk as [[_ ?]|[_ Hk]]; [discriminate|]). by eapply Hno.
      * right. pose proof (create_effects _ _ _ _ _ _ _ _ _ _ _ _ _ _ _ _ F) as Hc. eexists _, _. apply (ce_nc _ _ _ _ _ _ _ _ _ Hc).
      * by destruct (Hno _ _ Hs).
      * by destruct (Hno _ _ (cf_stream _ _ _ _ _ _ _ _ _ _ _ F)).
      * by destruct (Hno _ _ (wf_stream _ _ _ _ _ _ _ _ _ _ _ _ _ _ _ _ F)).
      * left. apply move_lamports_ok in Hmv as (Hd & _). rewrite Hd. done.
    + right. destruct Heff as [a f p c tb nb ? F|? a p ct nc cm dm sb s1 nm c0 c1 ? ? Hixx Hargs F|a s1 st ? ? Hsi Hse Hs ? ? ? ? -> ->|a m s1 vt dt st ? ? F
      |? a am tr m nt s1 s' vt dt fee wd ? ? Hixx Ham F|a tr n' ? Hc Htr' ? ? -> ? Hmv].
      * destruct F. rewrite !Forall_cons in if_fresh. destruct if_fresh as (_ & Hf & _).
        destruct (Hco _ _ Hk) as [Hf' _]. destruct (fpa_fun _ _ _ _ _ _ _ Hf' if_nc_addr) as [-> _]. congruence.
      * pose proof (create_effects _ _ _ _ _ _ _ _ _ _ _ _ _ _ _ _ F) as Hc. eexists _, _. apply (ce_nc _ _ _ _ _ _ _ _ _ Hc).
      * exists k, n. rewrite wdat_set_dat, lookup_insert_ne; [done|congruence].
      * exists k, n. eapply payout_non_own; [apply (cf_pay _ _ _ _ _ _ _ _ _ _ _ F)|apply (cf_vault _ _ _ _ _ _ _ _ _ _ _ F)|done|done| |done]. pose proof (cf_stream _ _ _ _ _ _ _ _ _ _ _ F). congruence.
      * exists k, n. eapply payout_non_own; [apply (wf_pay _ _ _ _ _ _ _ _ _ _ _ _ _ _ _ _ F)|apply (wf_vault _ _ _ _ _ _ _ _ _ _ _ _ _ _ _ _ F)|done|done| |done]. pose proof (wf_stream _ _ _ _ _ _ _ _ _ _ _ _ _ _ _ _ F). congruence.
      * exists k, n. apply move_lamports_ok in Hmv as (Hd & _). by rewrite Hd.
Qed.

(** ** In every history *)

Lemma genesis_lockup_inv E w : genesis E w -> lockup_inv E w.
Proof.
  intros [Hd Hp Ht]. split.
  - intros k s Hk. by apply Hd in Hk.
  - intros k s Hk. by apply Hd in Hk.
  - intros k s Hk. by apply Hd in Hk.
  - left. intros k s Hk. by apply Hd in Hk.
Qed.

Lemma step_lockup_inv E C w a evs w' : env_ok E -> token_sane E w -> lockup_inv E w -> step E C w a evs w' -> lockup_inv E w'.
Proof.
  intros HE Hsane Hinv Hst. pose proof (step_keeps _ _ _ _ _ _ HE Hsane Hst) as [Hl Hm Hs Ht].
  destruct Hst as [sg ix ? ? Hsg H|sg ix ? ? Hsg H|? Ho _].
  - by eapply (lockup_keeps_inv E sg ix w).
  - eapply untouched_lockup_inv; [done|by apply Hl|done|done].
  - eapply untouched_lockup_inv; [done|by apply Hl|done|done].
Qed.

Lemma run_lockup_inv E C w0 tr w : env_ok E -> token_sane E w0 -> lockup_inv E w0 -> run E C w0 tr w ->
  token_sane E w /\ lockup_inv E w.
Proof.
  intros HE H0 H1 Hr. induction Hr as [|tr w a evs w' Hr [IH1 IH2] Hst]; [done|]. split.
  - by eapply sk_token, step_keeps.
  - by eapply step_lockup_inv.
Qed.

Lemma history_lockup_inv E C tr w : env_ok E -> history E C tr w -> token_sane E w /\ lockup_inv E w.
Proof.
  intros HE (w0 & Hg & Hr). eapply run_lockup_inv; [done|apply Hg|by apply genesis_lockup_inv|done].
Qed.
