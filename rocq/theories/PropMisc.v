(** C44: account addresses are unambiguous. C48: the two programs do not interfere. *)
From Verif Require Export PropBorsh PropClawback.

(** ** C44 *)

(** Two accounts of Lockup (treasury, collection data, collection mint, stream NFT mint, stream) derived to the same
    address are the same kind of account with the same parameters, or two different strings with the same SHA-256 based
    address are exhibited. *)
Theorem C44_lockup : forall E x y b b' k, lockup_address_ok x -> lockup_address_ok y ->
  create_program_address E PLockup (lockup_seeds x) b = Some k -> create_program_address E PLockup (lockup_seeds y) b' = Some k ->
  (x = y /\ b = b') \/ collides E PLockup (seed_string (lockup_seeds x) b) (seed_string (lockup_seeds y) b').
Proof.
  intros E x y b b' k Hx Hy H1 H2. destruct (cpa_cases _ _ _ _ _ _ _ H1 H2) as [He|Hc]; [|by right].
  left. exact (lockup_seeds_inj _ _ _ _ Hx Hy He).
Qed.
(** The same for Merkle Instant (treasury, campaign, claim receipt); campaign names may have any length. *)
Theorem C44_merkle : forall E x y b b' k, merkle_address_ok x -> merkle_address_ok y ->
  create_program_address E PMerkle (merkle_seeds x) b = Some k -> create_program_address E PMerkle (merkle_seeds y) b' = Some k ->
  (x = y /\ b = b') \/ collides E PMerkle (seed_string (merkle_seeds x) b) (seed_string (merkle_seeds y) b').
Proof.
  intros E x y b b' k Hx Hy H1 H2. destruct (cpa_cases _ _ _ _ _ _ _ H1 H2) as [He|Hc]; [|by right].
  left. exact (merkle_seeds_inj _ _ _ _ Hx Hy He).
Qed.
(** Associated token accounts: the address determines owner, mint and token program. *)
Theorem C44_ata : forall E o m tp o' m' tp' k, key_ok o -> key_ok o' -> key_ok m -> key_ok m' ->
  key_ok (tprog_id E tp) -> key_ok (tprog_id E tp') ->
  ata_address E o m tp = Ok k -> ata_address E o' m' tp' = Ok k ->
  (o = o' /\ m = m' /\ tprog_id E tp = tprog_id E tp') \/
  exists b b', collides E PAssocToken (seed_string (ata_seeds E o m tp) b) (seed_string (ata_seeds E o' m' tp') b').
Proof.
  intros E o m tp o' m' tp' k Ho Ho' Hm Hm' Ht Ht' [b [H1 _]%fpa_cpa]%ata_fpa [b' [H2 _]%fpa_cpa]%ata_fpa.
  destruct (cpa_cases _ _ _ _ _ _ _ H1 H2) as [He|Hc]; [|right; by exists b, b'].
  left. destruct (ata_seeds_inj _ _ _ _ _ _ _ _ _ Ho Ho' Hm Hm' Ht Ht' He) as (? & ? & ? & _). done.
Qed.
(** Metaplex metadata and master edition accounts: the address determines the kind and the mint. *)
Theorem C44_metaplex : forall E x y b b' k, metaplex_address_ok x -> metaplex_address_ok y ->
  create_program_address E PMetadata (metaplex_seeds E x) b = Some k -> create_program_address E PMetadata (metaplex_seeds E y) b' = Some k ->
  (x = y /\ b = b') \/ collides E PMetadata (seed_string (metaplex_seeds E x) b) (seed_string (metaplex_seeds E y) b').
Proof.
  intros E x y b b' k Hx Hy H1 H2. destruct (cpa_cases _ _ _ _ _ _ _ H1 H2) as [He|Hc]; [|by right].
  left. exact (metaplex_seeds_inj _ _ _ _ _ Hx Hy He).
Qed.

(** In every reachable world there is at most one stream per sender and salt, and one campaign per identity. *)
Theorem C44_one_stream : forall E w k k' s s', env_ok E -> reachable E w ->
  wdat w !! k = Some (DStream s) -> wdat w !! k' = Some (DStream s') ->
  s_sender s = s_sender s' -> s_salt s = s_salt s' -> k = k'.
Proof.
  intros E w k k' s s' HE Hr Hk Hk' Hs Hsa. pose proof (reachable_inv _ _ HE Hr) as Hi.
  destruct (li_stream _ _ (inv_lockup _ _ Hi) _ _ Hk) as [_ _ (n & b & m & au & H1 & H2 & _) _].
  destruct (li_stream _ _ (inv_lockup _ _ Hi) _ _ Hk') as [_ _ (n' & b' & m' & au' & H1' & H2' & _) _].
  rewrite Hs, Hsa in H1. pose proof (eq_trans (eq_sym H1) H1') as He. injection He as -> _.
  pose proof (eq_trans (eq_sym H2) H2') as He. by injection He as -> _.
Qed.
Theorem C44_one_campaign : forall E w k k' c c', env_ok E -> reachable E w ->
  wdat w !! k = Some (DCampaign c) -> wdat w !! k' = Some (DCampaign c') ->
  c_creator c = c_creator c' -> c_root c = c_root c' -> c_start c = c_start c' -> c_expiration c = c_expiration c' ->
  c_name c = c_name c' -> c_mint c = c_mint c' -> k = k'.
Proof.
  intros E w k k' c c' HE Hr Hk Hk' H1 H2 H3 H4 H5 H6. pose proof (reachable_inv _ _ HE Hr) as Hi.
  pose proof (ci_addr _ _ _ _ (mi_campaign _ _ (inv_merkle _ _ Hi) _ _ Hk)) as A1.
  pose proof (ci_addr _ _ _ _ (mi_campaign _ _ (inv_merkle _ _ Hi) _ _ Hk')) as A2.
  rewrite H1, H2, H3, H4, H5, H6 in A1. pose proof (eq_trans (eq_sym A1) A2) as He. by injection He as -> _.
Qed.

(** ** C48 *)

(** Nothing of program [p] is affected: its accounts keep their data and lose no lamports, it gets no new accounts, and
    the associated token accounts of its derived addresses (vaults) keep their owner and mint and lose no tokens. *)
Record unaffected (E : env) (p : program) (w w' : world) : Prop := {
  ua_accounts : forall k d, wdat w !! k = Some d -> owner_prog d = Some p -> wdat w' !! k = Some d /\ lam w k <= lam w' k;
  ua_no_new : forall k d, wdat w' !! k = Some d -> owner_prog d = Some p -> wdat w !! k = Some d;
  ua_vaults : forall v t, wdat w !! v = Some (DToken t) -> pda_of E p (t_owner t) = true ->
    ata_address E (t_owner t) (t_mint t) (t_prog t) = Ok v ->
    exists t', wdat w' !! v = Some (DToken t') /\ t_mint t' = t_mint t /\ t_owner t' = t_owner t /\ t_amount t <= t_amount t' }.
Lemma untouched_unaffected E p q S w w' : untouched E p w w' -> frame E q S w w' -> pda_of E p S = false -> unaffected E p w w'.
Proof.
  intros [] F HS. split; [done|done|]. intros v t Hv Ho Ha. destruct (fr_tokens _ _ _ _ _ F v t Hv) as (t' & ? & (? & ? & ? & ?) & Hle).
  exists t'. split_and!; [done|done|done|]. apply Hle. congruence.
Qed.
Theorem C48_lockup : forall E w sg ix w' evs, env_ok E -> reachable E w -> signers_ok E sg ->
  lockup_exec E sg ix w = Ok (w', evs) -> unaffected E PMerkle w w'.
Proof.
  intros E w sg ix w' evs HE Hr Hs H. destruct (lockup_frame _ _ _ _ _ _ HE Hs H) as (S & F & HS). eapply untouched_unaffected; [|exact F|exact HS].
  apply (sk_merkle _ _ _ _ (step_keeps _ any_clock _ _ _ _ HE (inv_sane _ _ (reachable_inv _ _ HE Hr)) (step_lockup _ _ _ _ _ _ _ Hs H))). done.
Qed.
Theorem C48_merkle : forall E w sg ix w' evs, env_ok E -> reachable E w -> signers_ok E sg ->
  merkle_exec E sg ix w = Ok (w', evs) -> unaffected E PLockup w w'.
Proof.
  intros E w sg ix w' evs HE Hr Hs H. destruct (merkle_frame _ _ _ _ _ _ HE Hs H) as (S & F & HS). eapply untouched_unaffected; [|exact F|exact HS].
  apply (sk_lockup _ _ _ _ (step_keeps _ any_clock _ _ _ _ HE (inv_sane _ _ (reachable_inv _ _ HE Hr)) (step_merkle _ _ _ _ _ _ _ Hs H))). done.
Qed.
(** In terms of the API: the other program's views answer as before, and a vault does not lose tokens. *)
Theorem C48_lockup_views : forall E w sg ix w' evs, env_ok E -> reachable E w -> signers_ok E sg ->
  lockup_exec E sg ix w = Ok (w', evs) -> forall k,
  campaign_view k w' = campaign_view k w /\ has_expired_view k w' = has_expired_view k w /\
  has_campaign_started_view k w' = has_campaign_started_view k w /\
  has_grace_period_passed_view k w' = has_grace_period_passed_view k w /\
  (forall receipt index, has_claimed E k receipt index w' = has_claimed E k receipt index w) /\
  merkle_treasury_view E k w' = merkle_treasury_view E k w /\
  forall c tp v t, campaign_view k w = Ok c -> ata_address E k (c_mint c) tp = Ok v -> wdat w !! v = Some (DToken t) ->
    t_owner t = k -> t_mint t = c_mint c -> t_prog t = tp ->
    exists t', wdat w' !! v = Some (DToken t') /\ t_owner t' = k /\ t_mint t' = c_mint c /\ t_amount t <= t_amount t'.
Proof.
  intros E w sg ix w' evs HE Hr Hs H k.
  pose proof (step_lockup E any_clock w _ _ _ _ Hs H) as Hst. pose proof (reachable_inv _ _ HE Hr) as Hi.
  pose proof (sk_merkle _ _ _ _ (step_keeps _ _ _ _ _ _ HE (inv_sane _ _ Hi) Hst) eq_refl) as Hu.
  pose proof (lockup_clock _ _ _ _ _ _ HE Hs H) as Hcl. destruct (reachable_pdas _ _ HE Hr) as [_ Hmp].
  assert (Hnow : get_current_time w' = get_current_time w) by (unfold get_current_time; by rewrite Hcl).
  assert (Hc : forall k, load_campaign w' k = load_campaign w k).
  { clear k. intros k. unfold load_campaign. destruct (wdat w !! k) as [d|] eqn:Hk.
    - destruct (decide (owner_prog d = Some PMerkle)) as [Ho|Ho].
      + by rewrite (proj1 (u_data _ _ _ _ Hu _ _ Hk Ho)).
      + destruct (wdat w' !! k) as [d'|] eqn:Hk'; [|by destruct d; try done; destruct Ho].
        destruct d' as [| | |c'| | | | | | | | ]; try (by destruct d; try done; destruct Ho).
        pose proof (u_new _ _ _ _ Hu _ _ Hk' eq_refl) as Hn. rewrite Hk in Hn. by injection Hn as ->.
    - destruct (wdat w' !! k) as [d'|] eqn:Hk'; [|done]. destruct d' as [| | |c'| | | | | | | | ]; try done.
      pose proof (u_new _ _ _ _ Hu _ _ Hk' eq_refl) as Hn. congruence. }
  unfold campaign_view, has_expired_view, has_campaign_started_view, has_grace_period_passed_view. rewrite Hc, Hnow.
  split; [done|]. split; [done|]. split; [done|]. split; [done|]. split; [|split].
  - intros receipt index. unfold has_claimed. rewrite Hc. destruct (load_campaign w k) as [c|e]; cbn [rbind]; [|done].
    destruct (check_seeds E PMerkle (receipt_seeds k index) receipt) as [b|e] eqn:Hcs; cbn [rbind]; [|done].
    apply check_seeds_ok in Hcs. apply fpa_pda in Hcs as [Hp _]; [|done]. f_equal.
    destruct (wdat w !! receipt) as [d|] eqn:Hd.
    + by rewrite (proj1 (u_data _ _ _ _ Hu _ _ Hd (Hmp _ _ Hp Hd))).
    + by rewrite (u_pda _ _ _ _ Hu _ Hp Hd).
  - unfold merkle_treasury_view. replace (load_merkle_treasury w' k) with (load_merkle_treasury w k); [done|].
    unfold load_merkle_treasury. destruct (wdat w !! k) as [d|] eqn:Hk.
    + destruct (decide (owner_prog d = Some PMerkle)) as [Ho|Ho].
      * by rewrite (proj1 (u_data _ _ _ _ Hu _ _ Hk Ho)).
      * destruct (wdat w' !! k) as [d'|] eqn:Hk'; [|by destruct d; try done; destruct Ho].
        destruct d' as [| | | | |t'| | | | | | ]; try (by destruct d; try done; destruct Ho).
        pose proof (u_new _ _ _ _ Hu _ _ Hk' eq_refl) as Hn. rewrite Hk in Hn. by injection Hn as ->.
    + destruct (wdat w' !! k) as [d'|] eqn:Hk'; [|done]. destruct d' as [| | | | |t'| | | | | | ]; try done.
      pose proof (u_new _ _ _ _ Hu _ _ Hk' eq_refl) as Hn. congruence.
  - intros c tp v t Hv Ha Ht Ho Hm Hp. apply load_campaign_ok in Hv.
    pose proof (ci_addr _ _ _ _ (mi_campaign _ _ (inv_merkle _ _ Hi) _ _ Hv)) as Hka. apply fpa_pda in Hka as [Hpk _]; [|done].
    destruct (ua_vaults _ _ _ _ (C48_lockup _ _ _ _ _ _ HE Hr Hs H) v t Ht) as (t' & ? & ? & ? & ?); [by rewrite Ho|by rewrite Ho, Hm, Hp|].
    exists t'. split_and!; congruence || done.
Qed.
Theorem C48_merkle_views : forall E w sg ix w' evs, env_ok E -> reachable E w -> signers_ok E sg ->
  merkle_exec E sg ix w = Ok (w', evs) -> forall k nft s, stream_view E k nft w = Ok s ->
  stream_view E k nft w' = Ok s /\ streamed_amount_of E k nft w' = streamed_amount_of E k nft w /\
  withdrawable_amount_of E k nft w' = withdrawable_amount_of E k nft w /\
  refundable_amount_of E k nft w' = refundable_amount_of E k nft w /\
  status_of_view E k nft w' = status_of_view E k nft w /\
  (forall tk t, lockup_treasury_view E tk w = Ok t -> lockup_treasury_view E tk w' = Ok t) /\
  (forall x sender salt, stream_exists E x sender salt w = Ok false -> stream_exists E x sender salt w' = Ok false) /\
  forall tp v t, ata_address E k (s_mint s) tp = Ok v -> wdat w !! v = Some (DToken t) ->
    t_owner t = k -> t_mint t = s_mint s -> t_prog t = tp ->
    exists t', wdat w' !! v = Some (DToken t') /\ t_owner t' = k /\ t_mint t' = s_mint s /\ t_amount t <= t_amount t'.
Proof.
  intros E w sg ix w' evs HE Hr Hs H k nft s Hv.
  pose proof (step_merkle E any_clock w _ _ _ _ Hs H) as Hst. pose proof (reachable_inv _ _ HE Hr) as Hi.
  pose proof (sk_lockup _ _ _ _ (step_keeps _ _ _ _ _ _ HE (inv_sane _ _ Hi) Hst) eq_refl) as Hu.
  pose proof (merkle_clock _ _ _ _ _ _ HE Hs H) as Hcl. destruct (merkle_frame _ _ _ _ _ _ HE Hs H) as (S & F & _).
  assert (Hnow : get_current_time w' = get_current_time w) by (unfold get_current_time; by rewrite Hcl).
  destruct (stream_view_inv _ _ _ _ _ Hv) as (Hk & (m & Hm) & Hc).
  assert (Hv' : stream_view E k nft w' = Ok s).
  { pose proof (proj1 (u_data _ _ _ _ Hu _ _ Hk eq_refl)) as Hk'.
    assert (Hm' : wdat w' !! nft = Some (DMint m)) by (by apply (fr_other _ _ _ _ _ F _ _ Hm)).
    unfold stream_view, load_stream, load_mint, check_seeds_bump. rewrite Hk', Hm'. cbn [rbind]. rewrite Hc. by rewrite bool_decide_true. }
  unfold streamed_amount_of, withdrawable_amount_of, refundable_amount_of, status_of_view. rewrite Hv, Hv', Hnow.
  split; [done|]. split; [done|]. split; [done|]. split; [done|]. split; [done|]. split; [|split].
  - intros tk t. unfold lockup_treasury_view, load_lockup_treasury. destruct (wdat w !! tk) as [[]|] eqn:Ht; try done.
    by rewrite (proj1 (u_data _ _ _ _ Hu _ _ Ht eq_refl)).
  - intros x sender salt. unfold stream_exists. destruct (check_seeds E PLockup (nft_mint_seeds sender salt) x) as [b|e] eqn:Hcs; cbn [rbind]; [|done].
    apply check_seeds_ok in Hcs. apply fpa_pda in Hcs as [Hp _]; [|done].
    destruct (wdat w !! x) eqn:Hx; [done|]. intros _. destruct (wdat w' !! x) eqn:Hx'; [|done].
    discriminate (eq_trans (eq_sym Hx') (u_pda _ _ _ _ Hu _ Hp Hx)).
  - intros tp v t Ha Ht Ho Hmt Hp. 
    destruct (si_nft _ _ _ _ (li_stream _ _ (inv_lockup _ _ Hi) _ _ Hk)) as (nft' & b & m' & au & _ & Hka & _). apply fpa_pda in Hka as [Hpk _]; [|done].
    destruct (ua_vaults _ _ _ _ (C48_merkle _ _ _ _ _ _ HE Hr Hs H) v t Ht) as (t' & ? & ? & ? & ?); [by rewrite Ho|by rewrite Ho, Hmt, Hp|].
    exists t'. split_and!; congruence || done.
Qed.

(** ** Non-vacuity *)
Example C44_example : lockup_address_ok (AStreamNft kSender 1) /\ lockup_address_ok (AStreamNft kSender 2) /\
  create_program_address E0 PLockup (lockup_seeds (AStreamNft kSender 1)) 255 <> None /\
  create_program_address E0 PLockup (lockup_seeds (AStreamNft kSender 1)) 255 <>
  create_program_address E0 PLockup (lockup_seeds (AStreamNft kSender 2)) 255.
Proof.
  split; [split; vm_compute; intuition discriminate|]. split; [split; vm_compute; intuition discriminate|].
  split; vm_compute; discriminate.
Qed.
(** A Lockup instruction while a campaign exists, and a Merkle Instant instruction while a stream exists. *)
Example C48_example :
  (reachable E0 w6 /\ is_ok (campaign_view (kCampaign 1500 0) w6) = true /\
   is_ok (lockup_exec E0 [kRecipient] (LWithdraw (withdraw_to 2 kOther) 1) w6) = true) /\
  (is_ok (stream_view E0 (kStream kSender 2) (kNft kSender 2) w6) = true /\
   is_ok (merkle_exec E0 [kSender] (MClawback (clawback_to 1500 0 kSender) 100) w6) = true).
Proof. split; [split; [exact (history_reach _ _ _ w6_hist)|]|]; vm_compute; done. Qed.

Print Assumptions C44_lockup.
Print Assumptions C44_merkle.
Print Assumptions C44_ata.
Print Assumptions C44_metaplex.
Print Assumptions C44_one_stream.
Print Assumptions C44_one_campaign.
Print Assumptions C48_lockup.
Print Assumptions C48_merkle.
Print Assumptions C48_lockup_views.
Print Assumptions C48_merkle_views.
