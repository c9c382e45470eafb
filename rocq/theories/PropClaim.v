(** C33, C34 (claims succeed), C37: the claim instruction. *)
From Verif Require Export PropTree.

(** ** C33 *)

(** The campaign accepts claims at time [now]. *)
Definition window (c : campaign) (now : Z) : Prop :=
  c_start c <= now /\ (c_expiration c = 0 \/ now < c_expiration c).

Lemma window_expired E w k c : inv E w -> wdat w !! k = Some (DCampaign c) ->
  window c (get_current_time w) <-> c_start c <= get_current_time w /\ has_expired (get_current_time w) (c_expiration c) = false.
Proof.
  intros Hi Hk. pose proof (co_expiration _ (ci_ok _ _ _ _ (mi_campaign _ _ (inv_merkle _ _ Hi) _ _ Hk))).
  unfold window, has_expired. split; intros [? ?]; (split; [done|]).
  - destruct (Z.ltb_spec 0 (c_expiration c)); [|done]. simpl. apply Z.leb_gt. lia.
  - destruct (Z.ltb_spec 0 (c_expiration c)); [|lia]. simpl in *. rewrite Z.leb_gt in *. lia.
Qed.

Theorem C33_claim_in_window : forall E sg a index amount proof w w' evs c,
  env_ok E -> reachable E w -> campaign_view (la_campaign a) w = Ok c ->
  merkle_exec E sg (MClaim a index amount proof) w = Ok (w', evs) -> window c (get_current_time w).
Proof.
  intros E sg a i am pf w w' evs c HE Hr Hc%load_campaign_ok Hx. pose proof (reachable_inv _ _ HE Hr) as Hi.
  apply exec_claim_inv in Hx as (Hok & tr & m & c' & vt & dt & fee & F). destruct F.
  assert (c' = c) as -> by congruence. by apply (window_expired E w (la_campaign a)).
Qed.

(** Outside the window every claim fails. *)
Theorem C33_outside_fails : forall E sg a index amount proof w c,
  env_ok E -> reachable E w -> campaign_view (la_campaign a) w = Ok c -> ~ window c (get_current_time w) ->
  is_ok (merkle_exec E sg (MClaim a index amount proof) w) = false.
Proof.
  intros E sg a i am pf w c HE Hr Hc Hw. destruct (merkle_exec _ _ _ _) as [[w' evs]|e] eqn:Hx; [|done].
  destruct Hw. exact (C33_claim_in_window _ _ _ _ _ _ _ _ _ _ HE Hr Hc Hx).
Qed.

Theorem C33_views : forall E w k c, env_ok E -> reachable E w -> campaign_view k w = Ok c ->
  (exists b, has_campaign_started_view k w = Ok b /\ (b = true <-> c_start c <= get_current_time w)) /\
  (exists b, has_expired_view k w = Ok b /\ (b = true <-> c_expiration c <> 0 /\ c_expiration c <= get_current_time w)).
Proof.
  intros E w k c HE Hr Hc. pose proof (reachable_inv _ _ HE Hr) as Hi. unfold campaign_view in Hc.
  unfold has_campaign_started_view, has_expired_view. rewrite Hc. cbn [rbind].
  apply load_campaign_ok in Hc. pose proof (co_expiration _ (ci_ok _ _ _ _ (mi_campaign _ _ (inv_merkle _ _ Hi) _ _ Hc))).
  split; eexists; (split; [done|]).
  - apply Z.leb_le.
  - unfold has_expired. rewrite andb_true_iff, Z.ltb_lt, Z.leb_le. lia.
Qed.
(** The two views together are the window. *)
Theorem C33_window_views : forall E w k c, env_ok E -> reachable E w -> campaign_view k w = Ok c ->
  (window c (get_current_time w) <-> has_campaign_started_view k w = Ok true /\ has_expired_view k w = Ok false).
Proof.
  intros E w k c HE Hr Hc. destruct (C33_views E w k c HE Hr Hc) as ((b1 & H1 & B1) & (b2 & H2 & B2)).
  pose proof (co_expiration _ (ci_ok _ _ _ _ (mi_campaign _ _ (inv_merkle _ _ (reachable_inv _ _ HE Hr)) _ _ (proj1 (load_campaign_ok _ _ _) Hc)))).
  rewrite H1, H2. unfold window. split.
  - intros [? ?]. split; f_equal; [by apply B1|]. destruct b2; [|done]. destruct (proj1 B2 eq_refl). lia.
  - intros [[= ->] [= ->]]. split; [by apply B1|]. destruct (Z.eq_dec (c_expiration c) 0) as [?|Hne]; [by left|right].
    destruct (Z.lt_ge_cases (get_current_time w) (c_expiration c)) as [?|Hge]; [done|]. discriminate (proj2 B2 (conj Hne Hge)).
Qed.

(** ** C34: the claim succeeds *)

(** What has to be in place for a claim of [e] from a campaign with data [c]. *)
Record claim_ready (E : env) (w : world) (sg : list key) (a : claim_accs) (e : airdrop) (fee : Z) (c : campaign) : Prop := {
  lr_signed : la_claimer a ∈ sg;
  lr_campaign : campaign_view (la_campaign a) w = Ok c;
  lr_window : window c (get_current_time w);
  lr_recipient : la_recipient a = e_recipient e;
  (* the entry was not claimed yet *)
  lr_unclaimed : has_claimed E (la_campaign a) (la_receipt a) (e_index e) w = Ok false;
  (* the campaign's token and vault, with enough tokens *)
  lr_mint : la_mint a = c_mint c /\ exists m, wdat w !! la_mint a = Some (DMint m) /\ m_prog m = la_tp a;
  lr_vault : ata_address E (la_campaign a) (la_mint a) (la_tp a) = Ok (la_vault a) /\
    exists t, wdat w !! la_vault a = Some (DToken t) /\ t_owner t = la_campaign a /\ t_mint t = c_mint c /\
      t_prog t = la_tp a /\ t_frozen t = false /\ e_amount e <= t_amount t;
  (* the fee quoted is [fee] *)
  lr_fee : claim_fee_in_lamports E (la_treasury a) (la_chainlink a) (la_feed a) w = Ok fee;
  (* the recipient's account can take the tokens; the claimer can pay for it, for the receipt and the fee *)
  lr_receipt_lam : 0 <= lam w (la_receipt a);
  lr_dest : can_receive E w (la_claimer a) (la_recipient_ata a) (la_recipient a) (la_mint a) (la_tp a) (e_amount e)
    (Z.max 1 (rent_min E 8) + fee);
  (* the token does not refuse the transfer *)
  lr_token : token_allows E w (la_mint a) (la_vault a) (la_recipient_ata a) (e_amount e) }.

Lemma has_claimed_inv E k r i w b : has_claimed E k r i w = Ok b <->
  (exists c, campaign_view k w = Ok c) /\ (exists bump, find_program_address E PMerkle (receipt_seeds k i) = Ok (r, bump)) /\
  (b = true <-> wdat w !! r <> None).
Proof.
  unfold has_claimed, campaign_view, check_seeds. destruct (load_campaign w k) as [c|e] eqn:Hc; cbn [rbind]; [|split; [done|intros ((?&?)&_); done]].
  destruct (find_program_address E PMerkle (receipt_seeds k i)) as [[r' bump]|e] eqn:Hf; cbn [rbind]; [|split; [done|intros (_&(?&?)&_); done]].
  cbn [fst snd]. destruct (Z.eqb_spec r' r) as [Heq|Hne]; cbn [ensure rbind].
  - subst r'. destruct (wdat w !! r) eqn:Hr; (split; [intros [= <-]|intros (_&_&Hb)]).
    + split_and!; [by eexists|by eexists|done].
    + f_equal. symmetry. by apply Hb.
    + split_and!; [by eexists|by eexists|]. done.
    + f_equal. destruct b; [|done]. by destruct (proj1 Hb eq_refl).
  - split; [done|]. intros (_&(?&[= ? ?])&_). congruence.
Qed.

Lemma claim_live E w sg a e fee c proof : env_ok E -> inv E w -> signers_ok E sg -> entry_ok e ->
  forallb is_key [la_claimer a; la_recipient a; la_recipient_ata a; la_treasury a; la_mint a;
        la_campaign a; la_vault a; la_receipt a; la_chainlink a; la_feed a] = true -> forallb is_hash proof = true ->
  merkle_loop E (leaf_hash E (e_index e) (e_recipient e) (e_amount e)) proof = c_root c ->
  claim_ready E w sg a e fee c ->
  exists w', merkle_exec E sg (MClaim a (e_index e) (e_amount e) proof) w =
    Ok (w', [EvClaim (e_amount e) (la_campaign a) (la_claimer a) (la_receipt a) fee (e_index e) (la_recipient a)]).
Proof.
  intros HE Hi Hsg (He1 & He2 & He3) Hkeys Hp Hproof R.
  destruct R as [Rsg Rc Rw Rr Ru [Rmi (m & Rm & Rmp)] (Rva & vt & Rv & Vo & Vm & Vp & Rfz & Rb) Rfee Rl Rdest Rtok].
  apply load_campaign_ok in Rc as Hc.
  destruct (mi_campaign _ _ (inv_merkle _ _ Hi) _ _ Hc) as [Hok Haddr _].
  pose proof (proj1 (window_expired E w (la_campaign a) c Hi Hc) Rw) as [Hst Hex].
  apply has_claimed_inv in Ru as (_ & (rb & Hrec) & Hu).
  assert (wdat w !! la_receipt a = None) as Hrn.
  { destruct (wdat w !! la_receipt a); [|done]. discriminate (proj2 Hu ltac:(done)). }
  destruct (proj1 (claim_fee_view_inv _ _ _ _ _ _) Rfee) as (tr & Htrv & Hcp & Hcf & Hconv).
  apply merkle_treasury_view_inv in Htrv as [Htr Htra].
  assert (0 <= fee) as Hf0 by (eapply fee_nonneg; [|exact Hconv]; apply (eo_fees _ HE)).
  destruct (init_ata_live E _ _ _ _ _ w m (e_amount e) (Z.max 1 (rent_min E 8) + fee) ltac:(lia) ltac:(lia) Rm Rmp Rdest)
    as (w1 & t & Hi1 & Hds & Hdt & To & Tm & Tp & Tf & Tr & Tc).
  pose proof (fpa_pda _ _ _ _ _ HE Hrec) as [Prec _]. pose proof (fpa_pda _ _ _ _ _ HE Haddr) as [Pc _].
  assert (la_receipt a <> la_recipient_ata a) as N0.
  { intros Heq. rewrite Heq in Prec. destruct (ata_pda _ _ _ _ _ HE (cr_addr _ _ _ _ _ _ _ _ _ Rdest)) as [Pa _].
    pose proof (eo_disjoint _ HE _ _ _ Prec Pa). done. }
  assert (la_claimer a <> la_receipt a) as N1 by (intros Heq; destruct (Hsg _ Rsg); congruence).
  assert (0 <= lam w1 (la_receipt a)) as Hl1.
  { rewrite (init_ata_net _ _ _ _ _ _ _ _ (la_receipt a) (eo_rent _ HE) Hi1). unfold net. simpl.
    rewrite (proj2 (Z.eqb_neq _ _) N0). rewrite (proj2 (Z.eqb_neq _ _) (not_eq_sym N1)). lia. }
  destruct (init_account_live E (la_claimer a) (la_receipt a) RECEIPT_SPACE DClaimReceipt w1 fee Hf0) as (w2 & Hi2 & Hds2 & Hpay2); [|done|done|exact Tc|].
  { rewrite (ds_dat _ _ _ Hds), lookup_insert_ne by congruence. done. }
  assert (get_current_time w2 = get_current_time w) as Hn2.
  { apply now_same. by rewrite (ds_clock _ _ _ Hds2), (ds_clock _ _ _ Hds). }
  set (c' := campaign_claim c (get_current_time w)).
  assert (la_campaign a <> la_recipient_ata a) as N2 by (intros Heq; rewrite Heq in Hc; destruct Hdt; congruence).
  assert (la_campaign a <> la_receipt a) as N3 by congruence.
  assert (la_campaign a <> la_mint a) as N5 by congruence.
  assert (la_recipient_ata a <> la_mint a) as N6 by (intros Heq; rewrite Heq in Hdt; destruct Hdt; congruence).
  assert (la_receipt a <> la_mint a) as N7 by congruence.
  assert (convert_usd_fee_to_lamports (claim_fee_usd E) (la_chainlink a) (la_feed a) (set_dat (la_campaign a) (DCampaign c') w2) = Ok fee) as Hc1.
  { rewrite <- Hconv. apply oracle_not_feed; [by rewrite wclock_set_dat, (ds_clock _ _ _ Hds2), (ds_clock _ _ _ Hds)|].
    intros. rewrite wdat_set_dat, (ds_dat _ _ _ Hds2), (ds_dat _ _ _ Hds), !lookup_ins. destruct Hdt; repeat case_decide; try done; split; congruence. }
  destruct (charge_fee_live _ _ _ (la_claimer a) (la_treasury a) _ _ Hc1) as (w3 & Hw3).
  { destruct Hpay2 as [?|[Td Tl]]; [by left|]. destruct (decide (fee <= 0)) as [?|Hpos]; [by left|]. right. split; [|done].
    rewrite wdat_set_dat. rewrite lookup_insert_ne; [done|]. intros Heq. destruct (Hsg _ Rsg). congruence. }
  pose proof (charge_fee_ok _ _ _ _ _ _ _ _ Hw3) as ([A3 B3 _ _] & _).
  rewrite wdat_set_dat, (ds_dat _ _ _ Hds2), (ds_dat _ _ _ Hds) in A3.
  assert (la_campaign a <> la_vault a) as N8 by congruence.
  assert (la_receipt a <> la_vault a) as N9 by congruence.
  destruct (transfer_live E (la_tp a) (la_vault a) (la_recipient_ata a) (la_campaign a) (la_mint a) (e_amount e) w3 vt t m) as (w4 & Hw4).
  { rewrite A3. rewrite lookup_insert_ne by exact N8. rewrite lookup_insert_ne by exact N9. rewrite lookup_ins. case_decide as Hd; [|exact Rv].
    rewrite Hd in Hdt. rewrite Rv in Hdt. by destruct Hdt as [[= <-]|]. }
  { rewrite A3. rewrite lookup_insert_ne by exact N2. rewrite lookup_insert_ne by exact N0. by rewrite lookup_insert. }
  { rewrite A3. rewrite lookup_insert_ne by exact N5. rewrite lookup_insert_ne by exact N7. by rewrite lookup_insert_ne by exact N6. }
  { done. } { lia. } { unfold token_allows. rewrite B3, wclock_set_dat, (ds_clock _ _ _ Hds2), (ds_clock _ _ _ Hds). exact Rtok. }
  { done. } { done. } { done. } { done. } { done. } { done. } { congruence. } { done. } { done. } { done. }
  exists w4. unfold merkle_exec, merkle_ix_ok. rewrite Hkeys, Hp.
  assert (is_u32 (e_index e) = true) as -> by (unfold is_u32; apply andb_true_intro; split; apply Z.leb_le; lia).
  assert (is_u64 (e_amount e) = true) as -> by (unfold is_u64; apply andb_true_intro; split; apply Z.leb_le; lia).
  cbn [andb ensure rbind]. unfold claim.
  rewrite (check_signer_live _ _ Rsg), (proj2 (load_merkle_treasury_ok _ _ _) Htr), (proj2 (load_mint_ok _ _ _) Rm),
    (proj2 (load_campaign_ok _ _ _) Hc), (proj2 (load_token_ok _ _ _) Rv). cbn [rbind].
  rewrite Hi1. cbn [rbind]. unfold check_seeds. rewrite Hrec. cbn [rbind fst snd]. rewrite Z.eqb_refl. cbn [ensure rbind].
  rewrite Hi2. cbn [rbind]. rewrite (check_seeds_bump_live _ _ _ _ _ Htra). rewrite (check_address_live _ _ Rmi).
  rewrite (check_ata_live E (la_vault a) vt (la_campaign a) (la_mint a) (la_tp a) Vp Vo Rva).
  rewrite (check_address_live _ _ Hcp), (check_address_live _ _ Hcf). cbn [rbind].
  rewrite Hn2. rewrite (proj2 (check_claim_iff E _ _ _ _ _ _ _ _)).
  2:{ split_and!; [done| |by rewrite Rr]. unfold has_expired in Hex. lia. }
  cbn [rbind]. fold c'. rewrite Hw3. cbn [rbind]. rewrite Rmi.
  apply fpa_cpa in Haddr as [Haddr _]. rewrite Haddr. rewrite bool_decide_true by done. rewrite Rmi in Hw4. rewrite Hw4. done.
Qed.

(** Every entry of the tree can be claimed, by anybody, as long as the campaign is open, the entry was not claimed yet and
    the vault has the tokens. *)
Theorem C34_claim_succeeds : forall E w sg a e fee c t p,
  env_ok E -> reachable E w -> signers_ok E sg -> hash_ok (keccak E) -> tree_ok t -> c_root c = root (keccak E) t ->
  proof_of (keccak E) t e p ->
  forallb is_key [la_claimer a; la_recipient a; la_recipient_ata a; la_treasury a; la_mint a;
        la_campaign a; la_vault a; la_receipt a; la_chainlink a; la_feed a] = true ->
  claim_ready E w sg a e fee c ->
  exists w', merkle_exec E sg (MClaim a (e_index e) (e_amount e) p) w =
    Ok (w', [EvClaim (e_amount e) (la_campaign a) (la_claimer a) (la_receipt a) fee (e_index e) (la_recipient a)]).
Proof.
  intros E w sg a e fee c t p HE Hr Hsg HH Ht Hroot Hp Hk R.
  apply (claim_live E w sg a e fee c p HE (reachable_inv _ _ HE Hr) Hsg); [|done| |  |done].
  - apply Ht. by eapply proof_of_entry.
  - apply is_hash_proof. by apply (proof_of_hashes (keccak E) t e).
  - rewrite Hroot. pose proof (C34_check_accepts E t e p 0 0 0 HH Hp ltac:(lia) ltac:(lia)) as Hc.
    by apply check_claim_iff in Hc as (_ & _ & ?).
Qed.

(** ** C37 *)
Theorem C37_claim_exact : forall E sg a index amount proof w w' evs, env_ok E -> reachable E w -> signers_ok E sg ->
  merkle_exec E sg (MClaim a index amount proof) w = Ok (w', evs) ->
  exists c fee, campaign_view (la_campaign a) w = Ok c /\
    (* from the campaign's vault to the recipient's associated account *)
    ata_address E (la_campaign a) (c_mint c) (la_tp a) = Ok (la_vault a) /\
    ata_address E (la_recipient a) (c_mint c) (la_tp a) = Ok (la_recipient_ata a) /\
    (la_recipient a <> la_campaign a -> la_vault a <> la_recipient_ata a /\
       balance w' (la_vault a) = balance w (la_vault a) - amount /\
       balance w' (la_recipient_ata a) = balance w (la_recipient_ata a) + received E (c_mint c) (la_vault a) (la_recipient_ata a) (wclock w) amount /\
       (plain E (c_mint c) = true -> balance w' (la_recipient_ata a) = balance w (la_recipient_ata a) + amount)) /\
    (* (a tree that names the campaign itself as a recipient pays the vault from the vault) *)
    (la_recipient a = la_campaign a -> la_recipient_ata a = la_vault a /\ balance w' (la_vault a) = balance w (la_vault a)) /\
    amount <= balance w (la_vault a) /\
    (* nothing else changes *)
    unchanged_except [la_campaign a; la_vault a; la_recipient_ata a; la_receipt a] w w' /\
    (exists c', campaign_view (la_campaign a) w' = Ok c' /\ same_campaign_terms c c') /\
    (forall k, k <> la_vault a -> k <> la_recipient_ata a -> balance w' k = balance w k) /\
    (* the receipt is new *)
    wdat w !! la_receipt a = None /\ wdat w' !! la_receipt a = Some DClaimReceipt /\
    evs = [EvClaim amount (la_campaign a) (la_claimer a) (la_receipt a) fee index (la_recipient a)].
Proof.
  intros E sg a i am pf w w' evs HE Hr Hsg Hx. pose proof (merkle_receipt _ _ _ _ _ _ (la_receipt a) (proj2 (merkle_exec_effect _ _ _ _ _ _ Hx))) as (_ & _ & Hrec).
  apply exec_claim_inv in Hx as (Hok & tr & m & c & vt & dt & fee & F). destruct F.
  pose proof (pf_dest_addr _ _ _ _ _ _ _ _ _ _ _ _ _ _ _ lf_pay) as Hda.
  pose proof (payout_exact _ _ _ _ _ _ _ _ _ _ _ _ _ _ _ _ lf_pay lf_vault lf_campaign eq_refl lf_vault_addr) as PE.
  destruct PE as [P1 P2 P3 P4 P5 P6 P7].
  { intros k Hk. by apply claim_D. }
  assert (unchanged_except [la_campaign a; la_vault a; la_recipient_ata a; la_receipt a] w w') as Hun.
  { intros k Hk. rewrite !not_elem_of_cons in Hk. destruct Hk as (K1 & K2 & K3 & K4 & _).
    rewrite P2 by done. by rewrite lookup_insert_ne by congruence. }
  exists c, fee. split_and!.
  - by apply load_campaign_ok.
  - by rewrite <- lf_mint_addr.
  - by rewrite <- lf_mint_addr.
  - intros Hne. destruct (P5 Hne) as (X1 & X2 & X3). rewrite lf_mint_addr in X3. split; [exact X1|]. split; [exact X2|]. split; [exact X3|].
    intros Hpl. rewrite received_plain in X3; done.
  - exact P6.
  - exact P7.
  - exact Hun.
  - eexists. split; [apply load_campaign_ok; exact P1|apply campaign_claim_terms].
  - intros k K1 K2. unfold balance. destruct (decide (k = la_campaign a)) as [->|K3]; [by rewrite P1, lf_campaign|].
    destruct (decide (k = la_receipt a)) as [->|K4]; [by rewrite (Hrec _ _ _ _ eq_refl), lf_receipt|].
    rewrite Hun; [done|]. rewrite !not_elem_of_cons. split_and!; try done. apply not_elem_of_nil.
  - done.
  - exact (Hrec _ _ _ _ eq_refl).
  - done.
Qed.

(** Who signs does not matter for who is paid. *)
Theorem C37_any_signer : forall E sg sg' a a' index amount proof w w1 evs1 w2 evs2,
  env_ok E -> reachable E w -> signers_ok E sg -> signers_ok E sg' ->
  la_campaign a' = la_campaign a -> la_recipient a' = la_recipient a -> la_tp a' = la_tp a ->
  merkle_exec E sg (MClaim a index amount proof) w = Ok (w1, evs1) ->
  merkle_exec E sg' (MClaim a' index amount proof) w = Ok (w2, evs2) ->
  forall k, balance w1 k = balance w2 k.
Proof.
  intros E sg sg' a a' i am pf w w1 evs1 w2 evs2 HE Hr Hsg Hsg' Hc Hre Htp Hx Hy k.
  destruct (C37_claim_exact _ _ _ _ _ _ _ _ _ HE Hr Hsg Hx) as (c & f & C1 & V1 & D1 & M1 & S1 & _ & _ & _ & O1 & _).
  destruct (C37_claim_exact _ _ _ _ _ _ _ _ _ HE Hr Hsg' Hy) as (c' & f' & C2 & V2 & D2 & M2 & S2 & _ & _ & _ & O2 & _).
  rewrite Hc in C2. assert (c' = c) as -> by congruence. rewrite Hc, Htp in V2. rewrite Hre, Htp in D2.
  assert (la_vault a' = la_vault a) as Hv by congruence. assert (la_recipient_ata a' = la_recipient_ata a) as Hd by congruence.
  rewrite Hc, Hre, Hv, Hd in *.
  destruct (decide (la_recipient a = la_campaign a)) as [He|Hne].
  - destruct (S1 He) as [S11 S12], (S2 He) as [S21 S22]. destruct (decide (k = la_vault a)) as [->|]; [congruence|].
    rewrite O1, O2 by congruence. done.
  - destruct (M1 Hne) as (_ & M11 & M12 & _), (M2 Hne) as (_ & M21 & M22 & _). destruct (decide (k = la_vault a)) as [->|]; [congruence|].
    destruct (decide (k = la_recipient_ata a)) as [->|]; [congruence|]. rewrite O1, O2 by done. done.
Qed.

(** ** Non-vacuity *)
Lemma w6_reach : reachable E0 w6.
Proof. exact (history_reach _ _ _ w6_hist). Qed.
Definition camp6 : campaign := Campaign kToken (snd (default (0, 0) (match find_program_address E0 PMerkle
  (campaign_seeds kSender rootABC 1500 0 drop_name kToken) with Ok x => Some x | _ => None end))) 1500 kSender 0 1800 drop_cid rootABC drop_name.
Lemma w6_campaign : campaign_view (kCampaign 1500 0) w6 = Ok camp6.
Proof. vm_compute. reflexivity. Qed.
Lemma w6_ready : claim_ready E0 w6 [kOther] (claim_by kOther 1500 0 2 kCollector) (Entry 2 kCollector 200) 0 camp6.
Proof.
  split.
  - apply elem_of_list_here.
  - exact w6_campaign.
  - split; [vm_compute; discriminate|left; vm_compute; reflexivity].
  - reflexivity.
  - vm_compute. reflexivity.
  - split; [vm_compute; reflexivity|]. eexists. split; vm_compute; reflexivity.
  - split; [vm_compute; reflexivity|]. eexists. split; [vm_compute; reflexivity|].
    split; [vm_compute; reflexivity|]. split; [vm_compute; reflexivity|]. split; [vm_compute; reflexivity|]. split; [vm_compute; reflexivity|].
    vm_compute. discriminate.
  - vm_compute. reflexivity.
  - vm_compute. discriminate.
  - split; [vm_compute; reflexivity|]. right. split; [vm_compute; reflexivity|]. split; [vm_compute; discriminate|]. split; [vm_compute; discriminate|].
    right. split; [vm_compute; reflexivity|]. vm_compute. discriminate.
  - vm_compute. discriminate.
Qed.
Example C34_example : exists w' evs,
  merkle_exec E0 [kOther] (MClaim (claim_by kOther 1500 0 2 kCollector) 2 200 [nodeAB]) w6 = Ok (w', evs).
Proof.
  edestruct (C34_claim_succeeds E0 w6 [kOther] (claim_by kOther 1500 0 2 kCollector) (Entry 2 kCollector 200) 0 camp6 tree3 [nodeAB]) as [w' Hw'].
  - exact E0_ok.
  - exact w6_reach.
  - intros k ->%elem_of_list_singleton. split; vm_compute; reflexivity.
  - exact keccak_hash_ok.
  - exact tree3_ok.
  - symmetry. exact tree3_root.
  - exact tree3_proof2.
  - vm_compute. reflexivity.
  - exact w6_ready.
  - by eexists _, _.
Qed.

(** The claims of the run were exact; before the start, after the expiration and a second time they fail. *)
Example C37_example :
  balance w6 (ata kRecipient kToken SplToken) - balance w5 (ata kRecipient kToken SplToken) = 500 /\
  balance w5 (kCampVault 1500 0) - balance w6 (kCampVault 1500 0) = 600 /\
  balance w7 (ata kCollector kToken SplToken) - balance w6 (ata kCollector kToken SplToken) = 200.
Proof. split; [vm_compute; reflexivity|]. split; vm_compute; reflexivity. Qed.
Example C33_example :
  is_ok (merkle_exec E0 [kOther] (MClaim (claim_by kOther 1500 0 0 kRecipient) 0 500 [leafB; leafC]) (T 1499 w5)) = false /\
  is_ok (merkle_exec E0 [kOther] (MClaim (claim_by kOther 1500 0 0 kRecipient) 0 500 [leafB; leafC]) (T 1500 w5)) = true /\
  is_ok (merkle_exec E0 [kOther] (MClaim (claim_by kOther 1500 3000 0 kRecipient) 0 500 [leafB; leafC]) (T 2999 w5)) = true /\
  is_ok (merkle_exec E0 [kOther] (MClaim (claim_by kOther 1500 3000 0 kRecipient) 0 500 [leafB; leafC]) (T 3000 w5)) = false /\
  is_ok (merkle_exec E0 [kOther] (MClaim (claim_by kOther 1500 0 0 kRecipient) 0 500 [leafB; leafC]) w6) = false.
Proof. split; [vm_compute; reflexivity|]. split; [vm_compute; reflexivity|]. split; [vm_compute; reflexivity|]. split; vm_compute; reflexivity. Qed.

Print Assumptions C33_claim_in_window.
Print Assumptions C33_outside_fails.
Print Assumptions C33_views.
Print Assumptions C33_window_views.
Print Assumptions C34_claim_succeeds.
Print Assumptions C37_claim_exact.
Print Assumptions C37_any_signer.
