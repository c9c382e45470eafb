(** The invariant of Merkle Instant's accounts, kept by every step. *)
From Verif Require Export LockupInv.

(** ** Tokens paid out of a campaign, read off the events *)
Definition campaign_paid_by (k : key) (e : event) : Z :=
  match e with
  | EvClaim amount campaign _ _ _ _ _ => if campaign =? k then amount else 0
  | EvClawback amount campaign _ _ => if campaign =? k then amount else 0
  | _ => 0
  end.
Definition campaign_paid (k : key) (evs : list event) : Z := foldr (fun e acc => campaign_paid_by k e + acc) 0 evs.
Lemma campaign_paid_app k e1 e2 : campaign_paid k (e1 ++ e2) = campaign_paid k e1 + campaign_paid k e2.
Proof. induction e1; simpl; lia. Qed.

(** ** Changes of an existing campaign *)
Inductive campaign_change (E : env) (sg : list key) (w w' : world) (evs : list event) (k : key) (c : campaign)
  : merkle_ix -> campaign -> Prop :=
| cc_same ix : campaign_paid k evs = 0 ->
    (forall a i am pf, ix = MClaim a i am pf -> la_campaign a <> k) ->
    (forall a am, ix = MClawback a am -> ba_campaign a <> k) -> campaign_change E sg w w' evs k c ix c
| cc_claim a index amount proof tr m vt dt fee :
    la_campaign a = k -> claim_facts E sg a index amount proof w w' evs tr m c vt dt fee ->
    campaign_paid k evs = amount ->
    campaign_change E sg w w' evs k c (MClaim a index amount proof) (campaign_claim c (get_current_time w))
| cc_clawback a amount m vt dt :
    ba_campaign a = k -> clawback_facts E sg a amount w w' evs m c vt dt -> campaign_paid k evs = amount ->
    campaign_change E sg w w' evs k c (MClawback a amount) c.

Lemma claim_D w k x : wdat w !! x = None -> wdat w !! k <> None -> <[x:=DClaimReceipt]> (wdat w) !! k = wdat w !! k.
Proof. intros ? ?. rewrite lookup_insert_ne; [done|congruence]. Qed.

Lemma merkle_campaign E sg ix w w' evs k c : merkle_effect E sg w ix w' evs -> wdat w !! k = Some (DCampaign c) ->
  exists c', wdat w' !! k = Some (DCampaign c') /\ campaign_change E sg w w' evs k c ix c'.
Proof.
  intros Heff Hk.
  destruct Heff as [i t f p c1 b ? Hi Ht Hn Hne Hd Hr|a g m b c1 ? ? Hi Hm Hmp Hf Hn1 Hn2 Hne Hv Hc Hsz Hd ->|a i am pf tr m c1 vt dt fee ? ? F
    |a am m c1 vt dt ? ? F|a tr n ? Hc Htr Hcc Hca Hnn Hnpos Hmv].
  - exists c. split; [|by apply cc_same]. rewrite (ds_dat _ _ _ Hd), lookup_insert_ne; [done|congruence].
  - exists c. split; [|by apply cc_same]. rewrite (ds_dat _ _ _ Hd), !lookup_insert_ne; [done|congruence|congruence].
  - destruct (decide (k = la_campaign a)) as [->|].
    + assert (c1 = c) as ->. { pose proof (lf_campaign _ _ _ _ _ _ _ _ _ _ _ _ _ _ _ F). congruence. }
      eexists. split; [|eapply cc_claim; [done|exact F|]].
      * eapply payout_own; [apply (lf_pay _ _ _ _ _ _ _ _ _ _ _ _ _ _ _ F)|apply (lf_vault _ _ _ _ _ _ _ _ _ _ _ _ _ _ _ F)|exact Hk|done].
      * rewrite (lf_evs _ _ _ _ _ _ _ _ _ _ _ _ _ _ _ F). simpl. rewrite Z.eqb_refl. lia.
    + exists c. split; [|apply cc_same; [|intros ? ? ? ? [= <- <- <- <-]; congruence|done]].
      * eapply payout_non_own; [apply (lf_pay _ _ _ _ _ _ _ _ _ _ _ _ _ _ _ F)|apply (lf_vault _ _ _ _ _ _ _ _ _ _ _ _ _ _ _ F)| |done|done|done].
        intros x Hx. apply claim_D; [apply (lf_receipt _ _ _ _ _ _ _ _ _ _ _ _ _ _ _ F)|done].
      * rewrite (lf_evs _ _ _ _ _ _ _ _ _ _ _ _ _ _ _ F). simpl. by rewrite (proj2 (Z.eqb_neq _ _)) by done.
  - destruct (decide (k = ba_campaign a)) as [->|].
    + assert (c1 = c) as ->. { pose proof (bf_campaign _ _ _ _ _ _ _ _ _ _ _ F). congruence. }
      eexists. split; [|eapply cc_clawback; [done|exact F|]].
      * eapply payout_own; [apply (bf_pay _ _ _ _ _ _ _ _ _ _ _ F)|apply (bf_vault _ _ _ _ _ _ _ _ _ _ _ F)|exact Hk|done].
      * rewrite (bf_evs _ _ _ _ _ _ _ _ _ _ _ F). simpl. rewrite Z.eqb_refl. lia.
    + exists c. split; [|apply cc_same; [|done|intros ? ? [= <- <-]; congruence]].
      * eapply payout_non_own; [apply (bf_pay _ _ _ _ _ _ _ _ _ _ _ F)|apply (bf_vault _ _ _ _ _ _ _ _ _ _ _ F)|done|done|done|done].
      * rewrite (bf_evs _ _ _ _ _ _ _ _ _ _ _ F). simpl. by rewrite (proj2 (Z.eqb_neq _ _)) by done.
  - exists c. apply move_lamports_ok in Hmv as (-> & _). split; [done|]. by apply cc_same.
Qed.

Lemma merkle_new_campaign E sg ix w w' evs k c : merkle_effect E sg w ix w' evs -> wdat w' !! k = Some (DCampaign c) ->
  (exists c0, wdat w !! k = Some (DCampaign c0)) \/
  (exists a g, ix = MCreateCampaign a g /\ k = na_campaign a /\ wdat w !! k = None /\ na_creator a ∈ sg /\
    find_program_address E PMerkle
      (campaign_seeds (na_creator a) (g_root g) (g_start g) (g_expiration g) (g_name g) (na_mint a)) = Ok (k, c_bump c) /\
    c = Campaign (na_mint a) (c_bump c) (g_start g) (na_creator a) (g_expiration g) 0 (g_ipfs g) (g_root g) (g_name g) /\
    campaign_size c <= CAMPAIGN_SPACE /\
    ata_address E k (na_mint a) (na_tp a) = Ok (na_vault a) /\ wdat w !! na_vault a = None /\
    wdat w' !! na_vault a = Some (DToken (TokAcc (na_tp a) (na_mint a) k 0 false))).
Proof.
  intros Heff Hk.
  destruct Heff as [i t f p c1 b ? Hi Ht Hn Hne Hd Hr|a g m b c1 ? ? Hi Hm Hmp Hf Hn1 Hn2 Hne Hv -> Hsz Hd ->|a i am pf tr m c1 vt dt fee ? ? F
    |a am m c1 vt dt ? ? F|a tr n ? Hc Htr Hcc Hca Hnn Hnpos Hmv].
  - left. rewrite (ds_dat _ _ _ Hd) in Hk. apply lookup_insert_Some in Hk as [[_ ?]|[_ Hk]]; [discriminate|eauto].
  - rewrite (ds_dat _ _ _ Hd) in Hk. apply lookup_insert_Some in Hk as [[<- [= <-]]|[_ Hk]].
    + right. exists a, g. simpl. split_and!; try done. rewrite (ds_dat _ _ _ Hd), lookup_insert_ne by done. apply lookup_insert.
    + apply lookup_insert_Some in Hk as [[_ ?]|[_ Hk]]; [discriminate|eauto].
  - left. destruct (payout_back _ _ _ _ _ _ _ _ _ _ _ _ _ _ _ _ _ (lf_pay _ _ _ _ _ _ _ _ _ _ _ _ _ _ _ F) Hk eq_refl) as [[-> _]|Hk'].
    + exists c1. apply (lf_campaign _ _ _ _ _ _ _ _ _ _ _ _ _ _ _ F).
    + apply lookup_insert_Some in Hk' as [[_ ?]|[_ Hk']]; [discriminate|eauto].
  - left. destruct (payout_back _ _ _ _ _ _ _ _ _ _ _ _ _ _ _ _ _ (bf_pay _ _ _ _ _ _ _ _ _ _ _ F) Hk eq_refl) as [[-> _]|Hk']; [|eauto].
    exists c1. apply (bf_campaign _ _ _ _ _ _ _ _ _ _ _ F).
  - left. apply move_lamports_ok in Hmv as (Hd & _). rewrite Hd in Hk. eauto.
Qed.

Lemma merkle_receipt E sg ix w w' evs k : merkle_effect E sg w ix w' evs ->
  (wdat w !! k = Some DClaimReceipt -> wdat w' !! k = Some DClaimReceipt) /\
  (wdat w' !! k = Some DClaimReceipt -> wdat w !! k = Some DClaimReceipt \/
    exists a index amount proof tr m c vt dt fee, ix = MClaim a index amount proof /\ k = la_receipt a /\
      claim_facts E sg a index amount proof w w' evs tr m c vt dt fee) /\
  (forall a index amount proof, ix = MClaim a index amount proof -> wdat w' !! la_receipt a = Some DClaimReceipt).
Proof.
  intros Heff.
  destruct Heff as [i t f p c1 b ? Hi Ht Hn Hne Hd Hr|a g m b c1 ? ? Hi Hm Hmp Hf Hn1 Hn2 Hne Hv Hc Hsz Hd ->|a i am pf tr m c1 vt dt fee ? ? F
    |a am m c1 vt dt ? ? F|a tr n ? Hc Htr Hcc Hca Hnn Hnpos Hmv].
  - rewrite (ds_dat _ _ _ Hd). split_and!; [| |done].
    + intros Hk. rewrite lookup_insert_ne; [done|congruence].
    + intros Hk. apply lookup_insert_Some in Hk as [[_ ?]|[_ Hk]]; [discriminate|eauto].
  - rewrite (ds_dat _ _ _ Hd). split_and!; [| |done].
    + intros Hk. rewrite !lookup_insert_ne; [done|congruence|congruence].
    + intros Hk. apply lookup_insert_Some in Hk as [[_ ?]|[_ Hk]]; [discriminate|].
      apply lookup_insert_Some in Hk as [[_ ?]|[_ Hk]]; [discriminate|eauto].
  - pose proof (lf_campaign _ _ _ _ _ _ _ _ _ _ _ _ _ _ _ F) as Hc. pose proof (lf_receipt _ _ _ _ _ _ _ _ _ _ _ _ _ _ _ F) as Hr. split_and!.
    + intros Hk. eapply payout_non_own; [apply (lf_pay _ _ _ _ _ _ _ _ _ _ _ _ _ _ _ F)|apply (lf_vault _ _ _ _ _ _ _ _ _ _ _ _ _ _ _ F)| |done| |done].
      * intros x Hx. by apply claim_D.
      * congruence.
    + intros Hk. destruct (payout_back _ _ _ _ _ _ _ _ _ _ _ _ _ _ _ _ _ (lf_pay _ _ _ _ _ _ _ _ _ _ _ _ _ _ _ F) Hk eq_refl) as [[-> ?]|Hk']; [discriminate|].
      apply lookup_insert_Some in Hk' as [[<- _]|[_ Hk']]; [|by left].
      right. by exists a, i, am, pf, tr, m, c1, vt, dt, fee.
    + intros ? ? ? ? [= <- <- <- <-].
      rewrite (ds_dat _ _ _ (pf_step _ _ _ _ _ _ _ _ _ _ _ _ _ _ _ (lf_pay _ _ _ _ _ _ _ _ _ _ _ _ _ _ _ F))).
      rewrite payout_lookup_other; [apply lookup_insert|congruence| |apply (lf_receipt_dest _ _ _ _ _ _ _ _ _ _ _ _ _ _ _ F)].
      pose proof (lf_vault _ _ _ _ _ _ _ _ _ _ _ _ _ _ _ F). congruence.
  - pose proof (bf_campaign _ _ _ _ _ _ _ _ _ _ _ F) as Hc. split_and!; [| |done].
    + intros Hk. eapply payout_non_own; [apply (bf_pay _ _ _ _ _ _ _ _ _ _ _ F)|apply (bf_vault _ _ _ _ _ _ _ _ _ _ _ F)|done|done| |done]. congruence.
    + intros Hk. destruct (payout_back _ _ _ _ _ _ _ _ _ _ _ _ _ _ _ _ _ (bf_pay _ _ _ _ _ _ _ _ _ _ _ F) Hk eq_refl) as [[-> ?]|Hk']; [discriminate|eauto].
  - apply move_lamports_ok in Hmv as (-> & _). split_and!; [done|eauto|done].
Qed.

Lemma merkle_treasury E sg ix w w' evs k t : merkle_effect E sg w ix w' evs -> wdat w' !! k = Some (DMerkleTreasury t) ->
  wdat w !! k = Some (DMerkleTreasury t) /\
    (lam w k <= lam w' k \/ rent_min E TREASURY_SPACE + COLLECT_BUFFER <= lam w' k) \/
  exists i f p c, ix = MInitialize i k f p c /\ wdat w !! k = None /\
    find_program_address E PMerkle [s_TREASURY] = Ok (k, tr_bump t) /\ rent_min E TREASURY_SPACE <= lam w' k /\
    tr_fee_collector t = f /\ tr_chainlink_program t = p /\ tr_chainlink_feed t = c.
Proof.
  intros Heff Hk.
  destruct Heff as [i t1 f p c1 b ? Hi Ht Hn Hne Hd Hr|a g m b c1 ? ? Hi Hm Hmp Hf Hn1 Hn2 Hne Hv Hc Hsz Hd ->|a i am pf tr m c1 vt dt fee ? ? F
    |a am m c1 vt dt ? ? F|a tr n ? Hc Htr Hcc Hca -> Hnpos Hmv].
  - rewrite (ds_dat _ _ _ Hd) in Hk. apply lookup_insert_Some in Hk as [[<- [= <-]]|[_ Hk]].
    + right. by exists i, f, p, c1.
    + left. split; [done|]. left. apply (ds_mono _ _ _ Hd). congruence.
  - left. rewrite (ds_dat _ _ _ Hd) in Hk. apply lookup_insert_Some in Hk as [[_ ?]|[_ Hk]]; [discriminate|].
    apply lookup_insert_Some in Hk as [[_ ?]|[_ Hk]]; [discriminate|]. split; [done|]. left. apply (ds_mono _ _ _ Hd). congruence.
  - left. assert (Hk0 : wdat w !! k = Some (DMerkleTreasury t)).
    { destruct (payout_back _ _ _ _ _ _ _ _ _ _ _ _ _ _ _ _ _ (lf_pay _ _ _ _ _ _ _ _ _ _ _ _ _ _ _ F) Hk eq_refl) as [[-> ?]|Hk']; [discriminate|].
      by apply lookup_insert_Some in Hk' as [[_ ?]|[_ Hk']]. }
    split; [done|]. left. apply (ds_mono _ _ _ (pf_step _ _ _ _ _ _ _ _ _ _ _ _ _ _ _ (lf_pay _ _ _ _ _ _ _ _ _ _ _ _ _ _ _ F))). congruence.
  - left. assert (Hk0 : wdat w !! k = Some (DMerkleTreasury t)).
    { destruct (payout_back _ _ _ _ _ _ _ _ _ _ _ _ _ _ _ _ _ (bf_pay _ _ _ _ _ _ _ _ _ _ _ F) Hk eq_refl) as [[-> ?]|Hk']; [discriminate|done]. }
    split; [done|]. left. apply (ds_mono _ _ _ (pf_step _ _ _ _ _ _ _ _ _ _ _ _ _ _ _ (bf_pay _ _ _ _ _ _ _ _ _ _ _ F))). congruence.
  - left. apply move_lamports_ok in Hmv as (Hd & _ & _ & ? & Hne & Heq & Hoth). rewrite Hd in Hk. split; [done|].
    destruct (decide (fa_treasury a = fa_recipient a)) as [He|He].
    + left. destruct (decide (k = fa_treasury a)) as [->|]; [by rewrite Heq by done|]. rewrite Hoth; [lia|done|congruence].
    + destruct (Hne He) as [Hx1 Hx2]. destruct (decide (k = fa_treasury a)) as [->|]; [right; lia|]. left.
      destruct (decide (k = fa_recipient a)) as [->|]; [lia|]. rewrite Hoth; [lia|done|done].
Qed.

(** ** The invariant *)

Record campaign_ok (c : campaign) : Prop := {
  co_keys : key_ok (c_mint c) /\ key_ok (c_creator c);
  co_start : 0 <= c_start c <= U64_MAX;
  co_expiration : 0 <= c_expiration c <= U64_MAX;
  co_first : 0 <= c_first_claim c <= U64_MAX;
  co_root : is_hash (c_root c) = true;
  co_name : is_string (c_name c) = true;
  co_ipfs : is_string (c_ipfs c) = true;
  co_size : campaign_size c <= CAMPAIGN_SPACE }.

Record campaign_inv (E : env) (w : world) (k : key) (c : campaign) : Prop := {
  ci_ok : campaign_ok c;
  ci_addr : find_program_address E PMerkle
    (campaign_seeds (c_creator c) (c_root c) (c_start c) (c_expiration c) (c_name c) (c_mint c)) = Ok (k, c_bump c);
  ci_vault : exists tp v vt, ata_address E k (c_mint c) tp = Ok v /\ wdat w !! v = Some (DToken vt) /\
    t_owner vt = k /\ t_mint vt = c_mint c /\ t_prog vt = tp }.

Record merkle_inv (E : env) (w : world) : Prop := {
  mi_campaign : forall k c, wdat w !! k = Some (DCampaign c) -> campaign_inv E w k c;
  mi_receipt : forall k, wdat w !! k = Some DClaimReceipt ->
    exists ck c index b, wdat w !! ck = Some (DCampaign c) /\ 0 <= index <= 4294967295 /\
      find_program_address E PMerkle (receipt_seeds ck index) = Ok (k, b);
  mi_treasury : forall k t, wdat w !! k = Some (DMerkleTreasury t) -> treasury_inv E PMerkle w k t }.

Lemma untouched_merkle_inv E w w' : env_ok E -> untouched E PMerkle w w' -> merkle_inv E w -> merkle_inv E w'.
Proof.
  intros HE Hu [Hc Hr Ht]. split.
  - intros k c Hk. pose proof (u_new _ _ _ _ Hu _ _ Hk eq_refl) as Hk0.
    destruct (Hc _ _ Hk0) as [Hok Ha (tp & v & vt & Hat & Hv & Ho & Hm & Hp)]. split; [done|done|].
    assert (pda_of E PMerkle (t_owner vt) = true) by (rewrite Ho; by apply fpa_pda in Ha as [? _]).
    destruct (u_vault _ _ _ _ Hu _ _ Hv) as (t' & ? & ? & ? & ? & ?); [done|rewrite Ho, Hm, Hp; exact Hat|].
    exists tp, v, t'. split_and!; try congruence.
  - intros k Hk. pose proof (u_new _ _ _ _ Hu _ _ Hk eq_refl) as Hk0.
    destruct (Hr _ Hk0) as (ck & c & i & b & Hck & ? & ?). exists ck, c, i, b. split; [|done]. by apply (u_data _ _ _ _ Hu).
  - intros k t Hk. pose proof (u_new _ _ _ _ Hu _ _ Hk eq_refl) as Hk0. destruct (Ht _ _ Hk0).
    split; [done|done|]. destruct (u_data _ _ _ _ Hu _ _ Hk0 eq_refl) as [_ ?]. lia.
Qed.

(** Terms that never change. *)
Definition same_campaign_terms (c c' : campaign) : Prop :=
  c_creator c' = c_creator c /\ c_mint c' = c_mint c /\ c_root c' = c_root c /\ c_start c' = c_start c /\
  c_expiration c' = c_expiration c /\ c_name c' = c_name c /\ c_ipfs c' = c_ipfs c /\ c_bump c' = c_bump c.
Lemma same_campaign_terms_trans c1 c2 c3 : same_campaign_terms c1 c2 -> same_campaign_terms c2 c3 -> same_campaign_terms c1 c3.
Proof. unfold same_campaign_terms. intros (?&?&?&?&?&?&?&?) (?&?&?&?&?&?&?&?). split_and!; congruence. Qed.

Lemma campaign_claim_terms c now : same_campaign_terms c (campaign_claim c now).
Proof. unfold campaign_claim. destruct (_ =? 0); done. Qed.
Lemma campaign_change_terms E sg w w' evs k c ix c' : campaign_change E sg w w' evs k c ix c' -> same_campaign_terms c c'.
Proof. intros []; try done. apply campaign_claim_terms. Qed.

Lemma campaign_claim_ok c now : campaign_ok c -> 0 <= now <= U64_MAX -> campaign_ok (campaign_claim c now).
Proof. intros [] ?. unfold campaign_claim. destruct (_ =? 0); split; try done. Qed.

(** Tokens in accounts owned by a campaign only leave as its events report. *)
Lemma campaign_change_vault E sg w w' evs k c ix c' v t : env_ok E -> signers_ok E sg ->
  merkle_exec E sg ix w = Ok (w', evs) -> wdat w !! k = Some (DCampaign c) -> pda_of E PMerkle k = true ->
  campaign_change E sg w w' evs k c ix c' -> wdat w !! v = Some (DToken t) -> t_owner t = k ->
  0 <= campaign_paid k evs /\
  exists t', wdat w' !! v = Some (DToken t') /\ same_account t t' /\ t_amount t - campaign_paid k evs <= t_amount t'.
Proof.
  intros HE Hsg Hex Hk Hpda Hch Hv Ho.
  destruct Hch as [? Hp Hn1 Hn2|a i am pf tr m vt dt fee ? F Hp|a am m vt dt ? F Hp].
  - split; [lia|]. apply merkle_exec_effect in Hex as Heff. destruct Heff as [Hixok Heff].
    assert (Hfr : exists S, frame E PMerkle S w w' /\ S <> k).
    { unfold merkle_exec in Hex. rewrite Hixok in Hex. cbn [ensure rbind] in Hex.
      assert (Hsne : forall x, x ∈ sg -> x <> k) by (intros x Hx ->; destruct (Hsg _ Hx); congruence).
      destruct Heff as [i t1 f p c1 b ? Hi Ht Hn Hne Hd Hr|a g m b c1 ? ? Hi Hm Hmp Hf Hn3 Hn4 Hne Hvv Hc Hsz Hd ->|a i am pf tr m c1 vt dt fee ? ? F
        |a am m c1 vt dt ? ? F|a tr n ? Hc Htr Hcc Hca -> Hnpos Hmv].
      - exists i. split; [by eapply m_initialize_frame|]. by apply Hsne.
      - exists (na_creator a). split; [by eapply create_campaign_frame|]. by apply Hsne.
      - exists (la_campaign a). split; [eapply claim_frame; [done| |done]; unfold merkle_ix_ok in Hixok; ranges; lia|].
        by eapply Hn1.
      - exists (ba_campaign a). split; [eapply clawback_frame; [done| |done]; unfold merkle_ix_ok in Hixok; ranges; lia|].
        by eapply Hn2.
      - exists (fa_collector a). split; [|by apply Hsne]. eapply fees_frame; [by right|done|done| |done]. lia. }
    destruct Hfr as (S & F & HS). destruct (fr_tokens _ _ _ _ _ F _ _ Hv) as (t' & ? & ? & Hle).
    exists t'. split_and!; try done. rewrite Hp. specialize (Hle ltac:(congruence)). lia.
  - apply merkle_exec_effect in Hex as [Hixok _]. unfold merkle_ix_ok in Hixok. ranges. split; [lia|]. subst k. rewrite Hp.
    eapply payout_token; [done|apply (lf_pay _ _ _ _ _ _ _ _ _ _ _ _ _ _ _ F)|apply (lf_vault _ _ _ _ _ _ _ _ _ _ _ _ _ _ _ F)| |exact Hk|done|lia|done].
    intros x Hx. apply claim_D; [apply (lf_receipt _ _ _ _ _ _ _ _ _ _ _ _ _ _ _ F)|done].
  - apply merkle_exec_effect in Hex as [Hixok _]. unfold merkle_ix_ok in Hixok. ranges. split; [lia|]. subst k. rewrite Hp.
    eapply payout_token; [done|apply (bf_pay _ _ _ _ _ _ _ _ _ _ _ F)|apply (bf_vault _ _ _ _ _ _ _ _ _ _ _ F)|done|exact Hk|done|lia|done].
Qed.

Lemma merkle_keeps_inv E sg ix w w' evs : env_ok E -> signers_ok E sg -> merkle_inv E w ->
  merkle_exec E sg ix w = Ok (w', evs) -> merkle_inv E w'.
Proof.
  intros HE Hsg [Hc Hr Ht] Hex. pose proof Hex as Hex0. apply merkle_exec_effect in Hex0 as [Hix Heff]. split.
  - intros k c' Hk'. destruct (merkle_new_campaign _ _ _ _ _ _ _ _ Heff Hk')
      as [[c Hk]|(a & g & -> & -> & Hn & Hs & Hf & Hcc & Hsz & Hat & Hvn & Hv)].
    + destruct (merkle_campaign _ _ _ _ _ _ _ _ Heff Hk) as (c1 & Hk1 & Hch). rewrite Hk' in Hk1. injection Hk1 as <-.
      destruct (Hc _ _ Hk) as [Hok Ha (tp & v & vt & Hat & Hv & Ho & Hm & Hp)].
      destruct (campaign_change_terms _ _ _ _ _ _ _ _ _ Hch) as (T1 & T2 & T3 & T4 & T5 & T6 & T7 & T8).
      split; rewrite ?T1, ?T2, ?T3, ?T4, ?T5, ?T6, ?T8; [|done|].
      * destruct Hch; [done|apply campaign_claim_ok; [done|apply now_range]|done].
      * assert (pda_of E PMerkle k = true) by (by apply fpa_pda in Ha as [? _]).
        destruct (campaign_change_vault _ _ _ _ _ _ _ _ _ v vt HE Hsg Hex Hk ltac:(done) Hch Hv Ho) as (_ & t' & ? & (? & ? & ? & ?) & ?).
        exists tp, v, t'. split_and!; congruence.
    + unfold merkle_ix_ok in Hix. ranges. rewrite Hcc. split; simpl; [|done|].
      * split; simpl; try done. by rewrite <-Hcc.
      * eexists (na_tp a), (na_vault a), _. split; [exact Hat|]. split; [exact Hv|]. done.
  - intros k Hk. destruct (merkle_receipt _ _ _ _ _ _ k Heff) as (_ & Hb & _). destruct (Hb Hk) as [Hk0|(a & i & am & pf & tr & m & c & vt & dt & fee & -> & -> & F)].
    + destruct (Hr _ Hk0) as (ck & c & i & b & Hck & ? & ?).
      destruct (merkle_campaign _ _ _ _ _ _ _ _ Heff Hck) as (c1 & Hk1 & _). by exists ck, c1, i, b.
    + destruct (merkle_campaign _ _ _ _ _ _ _ _ Heff (lf_campaign _ _ _ _ _ _ _ _ _ _ _ _ _ _ _ F)) as (c1 & Hk1 & _).
      destruct (lf_receipt_addr _ _ _ _ _ _ _ _ _ _ _ _ _ _ _ F) as [b Hb'].
      exists (la_campaign a), c1, i, b. unfold merkle_ix_ok in Hix. ranges. done.
  - intros k t Hk. destruct (merkle_treasury _ _ _ _ _ _ _ _ Heff Hk) as [[Hk0 Hl]|(i & f & p & c & -> & ? & ? & ? & <- & <- & <-)].
    + destruct (Ht _ _ Hk0). split; [done|done|]. unfold COLLECT_BUFFER in Hl. lia.
    + split; [done| |done]. unfold merkle_ix_ok in Hix. ranges. done.
Qed.

Lemma genesis_merkle_inv E w : genesis E w -> merkle_inv E w.
Proof. intros [Hd Hp Ht]. split; intros ? **; by match goal with H : wdat w !! _ = Some _ |- _ => apply Hd in H end. Qed.

Lemma step_merkle_inv E C w a evs w' : env_ok E -> token_sane E w -> merkle_inv E w -> step E C w a evs w' -> merkle_inv E w'.
Proof.
  intros HE Hsane Hinv Hst. pose proof (step_keeps _ _ _ _ _ _ HE Hsane Hst) as [Hl Hm Hs Ht].
  destruct Hst as [sg ix ? ? Hsg H|sg ix ? ? Hsg H|? Ho _].
  - eapply untouched_merkle_inv; [done|by apply Hm|done].
  - by eapply (merkle_keeps_inv E sg ix w).
  - eapply untouched_merkle_inv; [done|by apply Hm|done].
Qed.

(** ** Both invariants, in every history *)
Record inv (E : env) (w : world) : Prop := {
  inv_sane : token_sane E w; inv_lockup : lockup_inv E w; inv_merkle : merkle_inv E w }.

Lemma step_inv E C w a evs w' : env_ok E -> inv E w -> step E C w a evs w' -> inv E w'.
Proof.
  intros HE [] Hst. split; [by eapply sk_token, step_keeps|by eapply step_lockup_inv|by eapply step_merkle_inv].
Qed.
Lemma run_inv E C w0 tr w : env_ok E -> inv E w0 -> run E C w0 tr w -> inv E w.
Proof. intros HE H0 Hr. induction Hr as [|tr w a evs w' Hr IH Hst]; [done|]. by eapply step_inv. Qed.
Lemma genesis_inv E w : genesis E w -> inv E w.
Proof. intros H. split; [apply H|by apply genesis_lockup_inv|by apply genesis_merkle_inv]. Qed.
Lemma history_inv E C tr w : env_ok E -> history E C tr w -> inv E w.
Proof. intros HE (w0 & Hg & Hr). eapply run_inv; [done|by apply genesis_inv|done]. Qed.
Lemma reachable_inv E w : env_ok E -> reachable E w -> inv E w.
Proof. intros HE [tr H]. by eapply history_inv. Qed.
Lemma reachable_fwd_inv E w : env_ok E -> reachable_fwd E w -> inv E w.
Proof. intros HE [_ [tr H]]. by eapply history_inv. Qed.
