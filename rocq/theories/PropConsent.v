(** C51: nobody loses tokens or lamports without having signed. *)
From Verif Require Export PropConserve.

(** ** Lamports *)
Definition spends_only (payer : key) (w w' : world) : Prop := forall k, k <> payer -> lam w k <= lam w' k.
Lemma so_refl p w : spends_only p w w.
Proof. intros k _. lia. Qed.
Lemma so_trans p w w1 w2 : spends_only p w w1 -> spends_only p w1 w2 -> spends_only p w w2.
Proof. intros H1 H2 k Hk. specialize (H1 k Hk). specialize (H2 k Hk). lia. Qed.
Lemma so_set_dat p k d w w1 : spends_only p w w1 -> spends_only p w (set_dat k d w1).
Proof. done. Qed.
Lemma so_transfer from to n w w' : 0 <= n -> system_transfer from to n w = Ok w' -> spends_only from w w'.
Proof.
  intros Hn H k Hk. apply system_transfer_ok in H as (_ & _ & _ & H1 & H2 & H3); [|done].
  destruct (decide (k = to)) as [->|]; [|rewrite H3 by done; lia]. destruct H1 as [_ ->]; [done|lia].
Qed.
Lemma so_init E p k sp d w w' : init_account E p k sp d w = Ok w' -> spends_only p w w'.
Proof.
  unfold init_account. destruct (wdat w !! k); [discriminate|]. intros H. inv_all H. injection H as <-. apply so_set_dat.
  set (need := if lam w k =? 0 then _ else _) in *. destruct (Z.ltb_spec 0 need).
  - eapply so_transfer; [|exact He0]. lia.
  - injection He0 as <-. apply so_refl.
Qed.
Lemma so_fund p k n d w w' : fund_account p k n d w = Ok w' -> spends_only p w w'.
Proof.
  unfold fund_account. destruct (wdat w !! k) eqn:Hk; [discriminate|]. intros H. inv_all H. injection H as <-. apply so_set_dat.
  destruct (Z.ltb_spec 0 n); [eapply so_transfer; [|exact He0]; lia|injection He0 as <-; apply so_refl].
Qed.
Lemma so_ata E p k o m tp w w' : create_ata E p k o m tp w = Ok w' -> spends_only p w w'.
Proof. unfold create_ata. intros H. inv_all H. by eapply so_init. Qed.
Lemma so_ata_if E p k o m tp w w' : init_ata_if_needed E p k o m tp w = Ok w' -> spends_only p w w'.
Proof.
  unfold init_ata_if_needed. destruct (wdat w !! k) as [[]|]; try discriminate; [|apply so_ata].
  intros H. inv_all H. injection H as <-. apply so_refl.
Qed.
Lemma so_mint E p k tp dec au fr w w' : create_mint E p k tp dec au fr w = Ok w' -> spends_only p w w'.
Proof. apply so_init. Qed.
Lemma so_mint_to p tp m to au sg n w w' : mint_to tp m to au sg n w = Ok w' -> spends_only p w w'.
Proof. unfold mint_to. intros H. inv_all H. injection H as <-. apply so_set_dat, so_set_dat, so_refl. Qed.
Lemma so_md E p md m au sg nm sy ur sz w w' : create_metadata E p md m au sg nm sy ur sz w = Ok w' -> spends_only p w w'.
Proof. unfold create_metadata. intros H. inv_all H. by eapply so_fund. Qed.
Lemma so_edition E p ed md m au sg w w' : create_master_edition E p ed md m au sg w = Ok w' -> spends_only p w w'.
Proof. unfold create_master_edition. intros H. inv_all H. injection H as <-. apply so_set_dat. by eapply so_init. Qed.
Lemma so_verify E p md au a b c sg w w' : set_and_verify_collection E md au a b c sg w = Ok w' -> spends_only p w w'.
Proof.
  unfold set_and_verify_collection. intros H. repeat case_match; try discriminate. inv_all H. injection H as <-.
  apply so_set_dat, so_set_dat, so_refl.
Qed.
Lemma so_sign p md sg w w' : sign_metadata md sg w = Ok w' -> spends_only p w w'.
Proof. unfold sign_metadata. intros H. repeat case_match; try discriminate. inv_all H. injection H as <-. apply so_set_dat, so_refl. Qed.
Lemma so_transfer_checked p E tp f t au sg m am d w w' : transfer_checked E tp f t au sg m am d w = Ok w' -> spends_only p w w'.
Proof. intros H k _. rewrite (transfer_checked_lam _ _ _ _ _ _ _ _ _ _ _ k H). lia. Qed.
Lemma so_fee fee_usd pr fd p t w w' fee : charge_fee fee_usd pr fd p t w = Ok (w', fee) -> spends_only p w w'.
Proof.
  unfold charge_fee. intros H. inv_all H. destruct (Z.ltb_spec 0 x).
  - inv_all H. injection H as <- <-. eapply so_transfer; [|exact He0]. lia.
  - injection H as <- <-. apply so_refl.
Qed.

Ltac so_step :=
  match goal with
  | |- spends_only ?p ?w ?w => apply so_refl
  | |- spends_only _ _ (set_dat _ _ _) => apply so_set_dat
  | H : init_account _ _ _ _ _ _ = Ok ?x |- spends_only _ _ ?x => eapply so_trans; [|eapply so_init; exact H]
  | H : create_ata _ _ _ _ _ _ _ = Ok ?x |- spends_only _ _ ?x => eapply so_trans; [|eapply so_ata; exact H]
  | H : init_ata_if_needed _ _ _ _ _ _ _ = Ok ?x |- spends_only _ _ ?x => eapply so_trans; [|eapply so_ata_if; exact H]
  | H : create_mint _ _ _ _ _ _ _ _ = Ok ?x |- spends_only _ _ ?x => eapply so_trans; [|eapply so_mint; exact H]
  | H : mint_to _ _ _ _ _ _ _ = Ok ?x |- spends_only _ _ ?x => eapply so_trans; [|eapply so_mint_to; exact H]
  | H : create_metadata _ _ _ _ _ _ _ _ _ _ _ = Ok ?x |- spends_only _ _ ?x => eapply so_trans; [|eapply so_md; exact H]
  | H : create_master_edition _ _ _ _ _ _ _ _ = Ok ?x |- spends_only _ _ ?x => eapply so_trans; [|eapply so_edition; exact H]
  | H : set_and_verify_collection _ _ _ _ _ _ _ _ = Ok ?x |- spends_only _ _ ?x => eapply so_trans; [|eapply so_verify; exact H]
  | H : sign_metadata _ _ _ = Ok ?x |- spends_only _ _ ?x => eapply so_trans; [|eapply so_sign; exact H]
  | H : transfer_checked _ _ _ _ _ _ _ _ _ _ = Ok ?x |- spends_only _ _ ?x => eapply so_trans; [|eapply so_transfer_checked; exact H]
  | H : charge_fee _ _ _ _ _ _ = Ok (?x, _) |- spends_only _ _ ?x => eapply so_trans; [|eapply so_fee; exact H]
  end.

Lemma initialize_spends E sg a f p c w w' evs : initialize E sg a f p c w = Ok (w', evs) -> spends_only (ia_initializer a) w w'.
Proof. unfold initialize. intros H. inv_all H. injection H as <- <-. repeat so_step. Qed.
Lemma create_accounts_spends E sg a salt w w' sb mb nc dm : create_accounts E sg a salt w = Ok (w', sb, mb, nc, dm) -> spends_only (ca_creator a) w w'.
Proof. unfold create_accounts. intros H. inv_all H. injection H as <- <- <- <- <-. repeat so_step. Qed.
Lemma create_handler_spends E sg a p sb mb nc dm w w' evs : create_handler E sg a p sb mb nc dm w = Ok (w', evs) -> spends_only (ca_creator a) w w'.
Proof.
  unfold create_handler, nft_create_stream. intros H. inv_all H. injection H as <- <-. inv_all He0. repeat so_step.
Qed.
Lemma create_ts_spends E sg a p w w' evs : create_with_timestamps E sg a p w = Ok (w', evs) -> spends_only (ca_creator a) w w'.
Proof.
  unfold create_with_timestamps. intros H. inv_all H. destruct x as [[[[w1 sb] mb] nc] dm].
  eapply so_trans; [eapply create_accounts_spends; exact He|eapply create_handler_spends; exact H].
Qed.
Lemma create_dur_spends E sg a q w w' evs : create_with_durations E sg a q w = Ok (w', evs) -> spends_only (ca_creator a) w w'.
Proof.
  unfold create_with_durations. intros H. inv_all H. destruct x as [[[[w1 sb] mb] nc] dm]. inv_all H.
  eapply so_trans; [eapply create_accounts_spends; exact He|eapply create_handler_spends; exact H].
Qed.
Lemma cancel_spends E sg a w w' evs : Lockup.cancel E sg a w = Ok (w', evs) -> spends_only (xa_sender a) w w'.
Proof. unfold Lockup.cancel. intros H. inv_all H. injection H as <- <-. repeat so_step. Qed.
Lemma withdraw_spends E sg a n w w' evs : withdraw E sg a n w = Ok (w', evs) -> spends_only (wa_signer a) w w'.
Proof.
  unfold withdraw. intros H. inv_all H. destruct x as [[w1 s] m]. unfold withdraw_accounts in He. inv_all He. injection He as <- <- <-.
  unfold withdraw_handler in H. inv_all H. match goal with p : (world * Z)%type |- _ => destruct p as [w3 fee'] end. inv_all H. injection H as <- <-. repeat so_step.
Qed.
Lemma create_campaign_spends E sg a g w w' evs : create_campaign E sg a g w = Ok (w', evs) -> spends_only (na_creator a) w w'.
Proof. unfold create_campaign. intros H. inv_all H. injection H as <- <-. repeat so_step. Qed.
Lemma claim_spends E sg a i n pf w w' evs : claim E sg a i n pf w = Ok (w', evs) -> spends_only (la_claimer a) w w'.
Proof.
  unfold claim. intros H. inv_all H. match goal with p : (world * Z)%type |- _ => destruct p as [w3 fee'] end. inv_all H. injection H as <- <-. repeat so_step.
Qed.
Lemma clawback_spends E sg a n w w' evs : clawback E sg a n w = Ok (w', evs) -> spends_only (ba_creator a) w w'.
Proof. unfold clawback. intros H. inv_all H. injection H as <- <-. repeat so_step. Qed.
Lemma m_initialize_spends E sg i t f p c w w' evs : m_initialize E sg i t f p c w = Ok (w', evs) -> spends_only i w w'.
Proof. unfold m_initialize. intros H. inv_all H. injection H as <- <-. repeat so_step. Qed.

(** ** Who may lose what *)

(** [k] is the vault of the stream at [o]. *)
Definition stream_vault (E : env) (w : world) (o k : key) (t : tokacc) : Prop :=
  exists s, wdat w !! o = Some (DStream s) /\ t_mint t = s_mint s /\ ata_address E o (s_mint s) (t_prog t) = Ok k.
Definition campaign_vault (E : env) (w : world) (o k : key) (t : tokacc) : Prop :=
  exists c, wdat w !! o = Some (DCampaign c) /\ t_mint t = c_mint c /\ ata_address E o (c_mint c) (t_prog t) = Ok k.

(** What a token account can go through: its owner, mint, program and frozen flag stay, and its balance falls only if [allowed]. *)
Definition kept_unless (w w' : world) (allowed : key -> tokacc -> Prop) : Prop :=
  forall k t, wdat w !! k = Some (DToken t) ->
    exists t', wdat w' !! k = Some (DToken t') /\ t_owner t' = t_owner t /\ t_mint t' = t_mint t /\ t_prog t' = t_prog t /\
      t_frozen t' = t_frozen t /\ (t_amount t' < t_amount t -> allowed k t).

Lemma frame_kept E p S w w' : frame E p S w w' -> kept_unless w w' (fun _ t => t_owner t = S).
Proof.
  intros F k t Hk. destruct (fr_tokens _ _ _ _ _ F k t Hk) as (t' & ? & (? & ? & ? & ?) & Ha). exists t'. split_and!; try done.
  intros Hlt. destruct (decide (t_owner t = S)) as [|Hne]; [done|]. specialize (Ha Hne). lia.
Qed.
Lemma kept_weaken w w' (P Q : key -> tokacc -> Prop) : kept_unless w w' P ->
  (forall k t t', wdat w !! k = Some (DToken t) -> wdat w' !! k = Some (DToken t') -> t_amount t' < t_amount t -> P k t -> Q k t) ->
  kept_unless w w' Q.
Proof.
  intros H HPQ k t Hk. destruct (H k t Hk) as (t' & Hk' & ? & ? & ? & ? & Ha). exists t'. split_and!; try done. intros Hlt. by eapply HPQ; eauto.
Qed.
Lemma payout_falls E w D own d0 newd vault dest vt dt amount tp mintk owner auth w' k t t' :
  env_ok E -> payout_facts E w D own newd vault dest vt dt amount tp mintk owner auth w' ->
  wdat w !! vault = Some (DToken vt) -> wdat w !! own = Some d0 -> is_token d0 = false -> 0 <= amount ->
  (forall k, wdat w !! k <> None -> D !! k = wdat w !! k) ->
  wdat w !! k = Some (DToken t) -> wdat w' !! k = Some (DToken t') -> t_amount t' < t_amount t -> k = vault.
Proof.
  intros HE F Hv Ho Hd0 Ham HD Hk Hk' Hlt. destruct (decide (k = vault)) as [|Hkv]; [done|]. exfalso.
  destruct F as [Fd _ _ _ _ _ _ _ _ _ [Fdat _ _ _]]. rewrite Fdat in Hk'.
  assert (k <> own) by (intros ->; rewrite Ho in Hk; by injection Hk as ->).
  destruct (decide (k = dest)) as [->|].
  - rewrite payout_lookup_dest in Hk' by congruence. injection Hk' as <-. simpl in Hlt.
    destruct Fd as [Fd|[Fd _]]; rewrite Hk in Fd; [|done]. injection Fd as ->. pose proof (received_range E mintk vault dest (wclock w) amount HE Ham). lia.
  - rewrite payout_lookup_other, HD, Hk in Hk' by congruence. injection Hk' as <-. lia.
Qed.

Theorem C51_lockup : forall E sg ix w w' evs, env_ok E -> signers_ok E sg -> lockup_exec E sg ix w = Ok (w', evs) ->
  kept_unless w w' (fun k t => t_owner t ∈ sg \/ stream_vault E w (t_owner t) k t) /\
  (forall k m, wdat w !! k = Some (DMint m) -> wdat w' !! k = Some (DMint m)) /\
  (forall k, lam w' k < lam w k -> k ∈ sg \/
    exists to tr, ix = LCollectFees (CollectAccs (tr_fee_collector tr) to k) /\ lockup_treasury_view E k w = Ok tr /\ tr_fee_collector tr ∈ sg).
Proof.
  intros E sg ix w w' evs HE Hsg Hx. destruct (lockup_frame _ _ _ _ _ _ HE Hsg Hx) as (S & F0 & _).
  pose proof Hx as Heff. apply lockup_exec_effect in Heff as [Hok Heff]. unfold lockup_exec in Hx. rewrite Hok in Hx. cbn [ensure rbind] in Hx.
  split; [|split; [intros k m Hk; by apply (fr_other _ _ _ _ _ F0)|]].
  - destruct Heff as [a f p c tb nb ? F|? a p ct nc cm dm sb s nm c0 c1 ? ? Hix Hargs F|a s st ? ? Hs|a m s vt dt st ? ? F
      |? a am tr m nt s s' vt dt fee wd ? ? Hix Ham F|a tr n ? Hc Htr ? ? -> Hpos Hmv].
    + eapply kept_weaken; [eapply frame_kept, initialize_frame; [done|exact Hx]|]. intros k t t' _ _ _ ->. left. exact (if_signer _ _ _ _ _ _ _ _ _ _ F).
    + eapply kept_weaken; [eapply frame_kept, create_frame; [done| |exact F]; apply Hargs|]. intros k t t' _ _ _ ->. left.
      exact (rf_signer _ _ _ _ _ _ _ _ _ _ _ _ _ _ _ _ F).
    + eapply kept_weaken; [eapply frame_kept, (renounce_frame _ _ _ _ _ _ (ra_sender a)); exact Hx|]. intros k t t' _ _ _ ->. by left.
    + eapply kept_weaken; [eapply frame_kept, cancel_frame; [done|exact Hx]|]. intros k t t' Hk Hk' Hlt Ho. right. pose proof F as Fc. destruct Fc.
      assert (k = xa_vault a) as -> by (eapply payout_falls; [exact HE|exact cf_pay|exact cf_vault|exact cf_stream|done|lia|done|done|done|done]).
      rewrite cf_vault in Hk. injection Hk as <-. exists s. rewrite Ho. split; [done|]. rewrite <- cf_mint_addr.
      rewrite (pf_vault_prog _ _ _ _ _ _ _ _ _ _ _ _ _ _ _ cf_pay). split; [exact (pf_vault_mint _ _ _ _ _ _ _ _ _ _ _ _ _ _ _ cf_pay)|done].
    + assert (exists am', withdraw E sg a am' w = Ok (w', evs) /\ am' = am) as (am' & Hw & ->).
      { destruct Hix as [->|[-> ->]]; [by exists am|]. apply withdraw_max_eq in Hx as (wd' & _ & H). exists wd'. split; [done|].
        pose proof H as H1. apply withdraw_inv in H1 as (?&?&?&?&?&?&?&?&?&F').
        pose proof (wf_evs _ _ _ _ _ _ _ _ _ _ _ _ _ _ _ _ F) as E1.
        pose proof (wf_evs _ _ _ _ _ _ _ _ _ _ _ _ _ _ _ _ F') as E2. rewrite E1 in E2. by injection E2. }
      eapply kept_weaken; [eapply frame_kept, withdraw_frame; [done| |exact Hw]; lia|]. intros k t t' Hk Hk' Hlt Ho. right. pose proof F as Fc. destruct Fc.
      assert (k = wa_vault a) as -> by (eapply payout_falls; [exact HE|exact wf_pay|exact wf_vault|exact wf_stream|done|lia|done|done|done|done]).
      rewrite wf_vault in Hk. injection Hk as <-. exists s. rewrite Ho. split; [done|]. rewrite <- wf_mint_addr.
      rewrite (pf_vault_prog _ _ _ _ _ _ _ _ _ _ _ _ _ _ _ wf_pay). split; [exact (pf_vault_mint _ _ _ _ _ _ _ _ _ _ _ _ _ _ _ wf_pay)|done].
    + eapply kept_weaken; [eapply frame_kept, (fees_frame E PLockup _ _ _ _ _ (fa_collector a)); [by left|exact Htr|done| |exact Hmv]; lia|].
      intros k t t' _ _ _ ->. by left.
  - intros k Hlt.
    assert (forall p, spends_only p w w' -> k = p) as Hsp.
    { intros p Hp. destruct (decide (k = p)) as [|Hne]; [done|]. specialize (Hp k Hne). lia. }
    destruct Heff as [a f p c tb nb ? F|ix a p ct nc cm dm sb s nm c0 c1 ? ? Hix Hargs F|a s st ? ? Hi ? Hs ? ? ? ? -> ->|a m s vt dt st ? ? F
      |ix a am tr m nt s s' vt dt fee wd ? ? Hix Ham F|a tr n ? Hc Htr Hcc Hta -> Hpos Hmv].
    + left. rewrite (Hsp _ (initialize_spends _ _ _ _ _ _ _ _ _ Hx)). exact (if_signer _ _ _ _ _ _ _ _ _ _ F).
    + left. assert (spends_only (ca_creator a) w w') as Hc.
      { destruct Hix as [->|(q & -> & _)]; [exact (create_ts_spends _ _ _ _ _ _ _ Hx)|exact (create_dur_spends _ _ _ _ _ _ _ Hx)]. }
      rewrite (Hsp _ Hc). exact (rf_signer _ _ _ _ _ _ _ _ _ _ _ _ _ _ _ _ F).
    + rewrite lam_set_dat in Hlt. lia.
    + left. rewrite (Hsp _ (cancel_spends _ _ _ _ _ _ Hx)). exact (cf_signer _ _ _ _ _ _ _ _ _ _ _ F).
    + left. assert (spends_only (wa_signer a) w w') as Hc.
      { destruct Hix as [->|[-> ->]]; [exact (withdraw_spends _ _ _ _ _ _ _ Hx)|]. apply withdraw_max_eq in Hx as (wd' & _ & H).
        exact (withdraw_spends _ _ _ _ _ _ _ H). }
      rewrite (Hsp _ Hc). exact (wf_signer _ _ _ _ _ _ _ _ _ _ _ _ _ _ _ _ F).
    + right. apply move_lamports_ok in Hmv as (_ & _ & _ & Hn & Hne & Heq & Hoth).
      assert (k = fa_treasury a) as ->.
      { destruct (decide (k = fa_treasury a)) as [|Hkt]; [done|]. destruct (decide (k = fa_recipient a)) as [->|]; [|rewrite Hoth in Hlt by done; lia].
        destruct Hne as [_ Hr]; [congruence|]. lia. }
      exists (fa_recipient a), tr. split; [destruct a; simpl in *; congruence|]. split; [by apply lockup_treasury_view_inv|congruence].
Qed.

Theorem C51_merkle : forall E sg ix w w' evs, env_ok E -> signers_ok E sg -> merkle_exec E sg ix w = Ok (w', evs) ->
  kept_unless w w' (fun k t => t_owner t ∈ sg \/ campaign_vault E w (t_owner t) k t) /\
  (forall k m, wdat w !! k = Some (DMint m) -> wdat w' !! k = Some (DMint m)) /\
  (forall k, lam w' k < lam w k -> k ∈ sg \/
    exists to tr, ix = MCollectFees (CollectAccs (tr_fee_collector tr) to k) /\ merkle_treasury_view E k w = Ok tr /\ tr_fee_collector tr ∈ sg).
Proof.
  intros E sg ix w w' evs HE Hsg Hx. destruct (merkle_frame _ _ _ _ _ _ HE Hsg Hx) as (S & F0 & _).
  pose proof Hx as Heff. apply merkle_exec_effect in Heff as [Hok Heff]. unfold merkle_exec in Hx. rewrite Hok in Hx. cbn [ensure rbind] in Hx.
  split; [|split; [intros k m Hk; by apply (fr_other _ _ _ _ _ F0)|]].
  - destruct Heff as [i t1 f p c1 b ? Hi|a g mt b c1 ? ? Hi|a i am pf tr mt c1 vt dt fee ? ? F|a am mt c1 vt dt ? ? F|a tr n ? Hc Htr Hcc Hca -> Hnpos Hmv].
    + eapply kept_weaken; [eapply frame_kept, m_initialize_frame; [done|exact Hx]|]. intros k t t' _ _ _ ->. by left.
    + eapply kept_weaken; [eapply frame_kept, create_campaign_frame; [done|exact Hx]|]. intros k t t' _ _ _ ->. by left.
    + assert (0 <= am) as Ham by (unfold merkle_ix_ok in Hok; ranges; lia).
      eapply kept_weaken; [eapply frame_kept, claim_frame; [done| |exact Hx]; lia|]. intros k t t' Hk Hk' Hlt Ho. right. pose proof F as Fc. destruct Fc.
      assert (k = la_vault a) as ->.
      { eapply payout_falls; [exact HE|exact lf_pay|exact lf_vault|exact lf_campaign|done|lia| |done|done|done]. intros x Hx0. by apply claim_D. }
      rewrite lf_vault in Hk. injection Hk as <-. exists c1. rewrite Ho. split; [done|]. rewrite <- lf_mint_addr.
      rewrite (pf_vault_prog _ _ _ _ _ _ _ _ _ _ _ _ _ _ _ lf_pay). split; [exact (pf_vault_mint _ _ _ _ _ _ _ _ _ _ _ _ _ _ _ lf_pay)|done].
    + assert (0 <= am) as Ham by (unfold merkle_ix_ok in Hok; ranges; lia).
      eapply kept_weaken; [eapply frame_kept, clawback_frame; [done| |exact Hx]; lia|]. intros k t t' Hk Hk' Hlt Ho. right. pose proof F as Fc. destruct Fc.
      assert (k = ba_vault a) as -> by (eapply payout_falls; [exact HE|exact bf_pay|exact bf_vault|exact bf_campaign|done|lia|done|done|done|done]).
      rewrite bf_vault in Hk. injection Hk as <-. exists c1. rewrite Ho. split; [done|]. rewrite <- bf_mint_addr.
      rewrite (pf_vault_prog _ _ _ _ _ _ _ _ _ _ _ _ _ _ _ bf_pay). split; [exact (pf_vault_mint _ _ _ _ _ _ _ _ _ _ _ _ _ _ _ bf_pay)|done].
    + eapply kept_weaken; [eapply frame_kept, (fees_frame E PMerkle _ _ _ _ _ (fa_collector a)); [by right|exact Htr|done| |exact Hmv]; lia|].
      intros k t t' _ _ _ ->. by left.
  - intros k Hlt.
    assert (forall p, spends_only p w w' -> k = p) as Hsp.
    { intros p Hp. destruct (decide (k = p)) as [|Hne]; [done|]. specialize (Hp k Hne). lia. }
    destruct Heff as [i t1 f p c1 b ? Hi|a g mt b c1 ? ? Hi|a i am pf tr mt c1 vt dt fee ? ? F|a am mt c1 vt dt ? ? F|a tr n ? Hc Htr Hcc Hca -> Hnpos Hmv].
    + left. by rewrite (Hsp _ (m_initialize_spends _ _ _ _ _ _ _ _ _ _ Hx)).
    + left. by rewrite (Hsp _ (create_campaign_spends _ _ _ _ _ _ _ Hx)).
    + left. rewrite (Hsp _ (claim_spends _ _ _ _ _ _ _ _ _ Hx)). exact (lf_signer _ _ _ _ _ _ _ _ _ _ _ _ _ _ _ F).
    + left. rewrite (Hsp _ (clawback_spends _ _ _ _ _ _ _ Hx)). exact (bf_signer _ _ _ _ _ _ _ _ _ _ _ F).
    + right. apply move_lamports_ok in Hmv as (_ & _ & _ & Hn & Hne & Heq & Hoth).
      assert (k = fa_treasury a) as ->.
      { destruct (decide (k = fa_treasury a)) as [|Hkt]; [done|]. destruct (decide (k = fa_recipient a)) as [->|]; [|rewrite Hoth in Hlt by done; lia].
        destruct Hne as [_ Hr]; [congruence|]. lia. }
      exists (fa_recipient a), tr. split; [destruct a; simpl in *; congruence|]. split; [by apply merkle_treasury_view_inv|congruence].
Qed.

(** ** Examples *)
(** Somebody else triggers a withdrawal of stream 2 for the recipient: the vault pays, the caller pays the rent and nobody
    else loses anything; and a claim for somebody else. *)
Definition third_withdraw : withdraw_accs :=
  WithdrawAccs kOther kRecipient kRecipient (ata kRecipient kToken SplToken) kTreasury kToken
    (ata kRecipient (kNft kSender 2) SplToken) (kStream kSender 2) (kVault kSender 2) (kNft kSender 2) kOracle kFeed SplToken SplToken.
Definition after (r : res (world * list event)) (w : world) : world := match r with Ok (w', _) => w' | Err _ => w end.
Example C51_lockup_example :
  let r := lockup_exec E0 [kOther] (LWithdraw third_withdraw 100) w6 in
  signers_ok E0 [kOther] /\ is_ok r = true /\
  balance (after r w6) (kVault kSender 2) = balance w6 (kVault kSender 2) - 100 /\
  is_ok (stream_view E0 (kStream kSender 2) (kNft kSender 2) w6) = true /\ lam (after r w6) kSender = lam w6 kSender.
Proof.
  cbv zeta. split; [intros k Hk; apply elem_of_list_singleton in Hk as ->; vm_compute; done|].
  split; [vm_compute; reflexivity|]. split; [vm_compute; reflexivity|].
  split; vm_compute; reflexivity.
Qed.
Example C51_merkle_example :
  let r := merkle_exec E0 [kOther] (MClaim (claim_by kOther 1500 0 0 kRecipient) 0 500 [leafB; leafC]) (T 1800 w5) in
  signers_ok E0 [kOther] /\ is_ok r = true /\
  balance (after r w5) (kCampVault 1500 0) = balance w5 (kCampVault 1500 0) - 500 /\ lam (after r w5) kOther < lam w5 kOther.
Proof.
  cbv zeta. split; [intros k Hk; apply elem_of_list_singleton in Hk as ->; vm_compute; done|].
  split; [vm_compute; reflexivity|]. split; vm_compute; reflexivity.
Qed.
Print Assumptions C51_lockup.
Print Assumptions C51_merkle.
