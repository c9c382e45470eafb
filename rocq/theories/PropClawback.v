(** C40, C41, C42, C46: clawbacks, the grace period and expiration. *)
From Verif Require Export PropCampaign.

Definition SEVEN_DAYS : Z := 7 * 24 * 60 * 60.
(** More than seven days have passed since the first claim. *)
Definition grace_over (c : campaign) (now : Z) : Prop := c_first_claim c <> 0 /\ c_first_claim c + SEVEN_DAYS < now.
Definition expired (c : campaign) (now : Z) : Prop := c_expiration c <> 0 /\ c_expiration c <= now.
(** When the creator may take tokens back. *)
Definition clawback_allowed (c : campaign) (now : Z) : Prop :=
  c_first_claim c = 0 \/ now <= c_first_claim c + SEVEN_DAYS \/ expired c now.

Lemma grace_fun now f : 0 <= f -> forall b, has_grace_period_passed now f = Ok b ->
  (b = true <-> f <> 0 /\ f + SEVEN_DAYS < now).
Proof.
  intros Hf b. unfold has_grace_period_passed, u64_add. change GRACE_PERIOD with SEVEN_DAYS.
  destruct (Z.ltb_spec 0 f) as [H|H]; [|intros [= <-]; split; [done|lia]].
  destruct (Z.leb_spec (f + SEVEN_DAYS) U64_MAX); cbn [rbind]; [|done]. intros [= <-]. rewrite Z.ltb_lt. lia.
Qed.
Lemma grace_defined now f : f + SEVEN_DAYS <= U64_MAX -> exists b, has_grace_period_passed now f = Ok b.
Proof.
  intros Hf. unfold has_grace_period_passed, u64_add. change GRACE_PERIOD with SEVEN_DAYS. destruct (0 <? f); [|by eexists].
  rewrite (proj2 (Z.leb_le _ _) Hf). cbn [rbind]. by eexists.
Qed.
Lemma expired_fun c now : 0 <= c_expiration c -> has_expired now (c_expiration c) = true <-> expired c now.
Proof. intros. unfold has_expired, expired. rewrite andb_true_iff, Z.ltb_lt, Z.leb_le. lia. Qed.

Lemma check_clawback_iff c now : 0 <= c_expiration c -> 0 <= c_first_claim c ->
  check_clawback now (c_expiration c) (c_first_claim c) = Ok tt -> clawback_allowed c now.
Proof.
  intros He Hf H. unfold check_clawback in H. destruct (has_grace_period_passed _ _) as [b|] eqn:Hg; [|done]. cbn [rbind] in H.
  pose proof (grace_fun _ _ Hf _ Hg) as Hb. unfold clawback_allowed. destruct b.
  - destruct (has_expired now (c_expiration c)) eqn:Hx; [|done]. right; right. by apply expired_fun.
  - destruct (Z.eq_dec (c_first_claim c) 0) as [?|Hne]; [by left|]. right; left.
    destruct (Z.le_gt_cases now (c_first_claim c + SEVEN_DAYS)) as [?|Hgt]; [done|]. discriminate (proj2 Hb (conj Hne Hgt)).
Qed.
Lemma check_clawback_live c now : 0 <= c_expiration c -> 0 <= c_first_claim c -> c_first_claim c + SEVEN_DAYS <= U64_MAX ->
  clawback_allowed c now -> check_clawback now (c_expiration c) (c_first_claim c) = Ok tt.
Proof.
  intros He Hf Hl Ha. unfold check_clawback. destruct (grace_defined now _ Hl) as [b Hg]. rewrite Hg. cbn [rbind].
  pose proof (grace_fun _ _ Hf _ Hg) as Hb. destruct b; [|done].
  destruct (has_expired now (c_expiration c)) eqn:Hx; [done|]. exfalso. destruct (proj1 Hb eq_refl).
  destruct Ha as [?|[?|Hex]]; [lia|lia|]. apply expired_fun in Hex; [congruence|done].
Qed.

(** ** C40 *)
Theorem C40_clawback_only : forall E sg a amount w w' evs, env_ok E -> reachable E w -> signers_ok E sg ->
  merkle_exec E sg (MClawback a amount) w = Ok (w', evs) ->
  exists c, campaign_view (ba_campaign a) w = Ok c /\
    (* the creator signed, at an allowed time *)
    c_creator c ∈ sg /\ clawback_allowed c (get_current_time w) /\
    (* exactly [amount] moves from the campaign's vault to the recipient's associated account *)
    ata_address E (ba_campaign a) (c_mint c) (ba_tp a) = Ok (ba_vault a) /\
    ata_address E (ba_recipient a) (c_mint c) (ba_tp a) = Ok (ba_recipient_ata a) /\
    (ba_recipient a <> ba_campaign a -> ba_vault a <> ba_recipient_ata a /\
       balance w' (ba_vault a) = balance w (ba_vault a) - amount /\
       balance w' (ba_recipient_ata a) = balance w (ba_recipient_ata a) + received E (c_mint c) (ba_vault a) (ba_recipient_ata a) (wclock w) amount /\
       (plain E (c_mint c) = true -> balance w' (ba_recipient_ata a) = balance w (ba_recipient_ata a) + amount)) /\
    (ba_recipient a = ba_campaign a -> ba_recipient_ata a = ba_vault a /\ balance w' (ba_vault a) = balance w (ba_vault a)) /\
    amount <= balance w (ba_vault a) /\
    (* nothing else changes; in particular the campaign does not *)
    unchanged_except [ba_vault a; ba_recipient_ata a] w w' /\ campaign_view (ba_campaign a) w' = Ok c /\
    evs = [EvClawback amount (ba_campaign a) (c_creator c) (ba_recipient a)].
Proof.
  intros E sg a am w w' evs HE Hr Hsg Hx. pose proof (reachable_inv _ _ HE Hr) as Hi.
  apply exec_clawback_inv in Hx as (Hok & m & c & vt & dt & F). destruct F.
  pose proof (pf_dest_addr _ _ _ _ _ _ _ _ _ _ _ _ _ _ _ bf_pay) as Hda.
  pose proof (payout_exact _ _ _ _ _ _ _ _ _ _ _ _ _ _ _ _ bf_pay bf_vault bf_campaign eq_refl bf_vault_addr) as PE.
  destruct PE as [P1 P2 P3 P4 P5 P6 P7]; [done|].
  pose proof (ci_ok _ _ _ _ (mi_campaign _ _ (inv_merkle _ _ Hi) _ _ bf_campaign)) as Hcok.
  exists c. split_and!.
  - by apply load_campaign_ok.
  - by rewrite <- bf_creator.
  - apply check_clawback_iff; [apply Hcok|apply Hcok|done].
  - by rewrite <- bf_mint_addr.
  - by rewrite <- bf_mint_addr.
  - intros Hne. destruct (P5 Hne) as (X1 & X2 & X3). rewrite bf_mint_addr in X3. split; [exact X1|]. split; [exact X2|]. split; [exact X3|].
    intros Hpl. rewrite received_plain in X3; done.
  - exact P6.
  - exact P7.
  - intros k Hk. rewrite !not_elem_of_cons in Hk. destruct Hk as (K1 & K2 & _).
    destruct (decide (k = ba_campaign a)) as [->|]; [by rewrite P1, bf_campaign|]. by apply P2.
  - by apply load_campaign_ok.
  - by rewrite <- bf_creator.
Qed.

(** Otherwise it fails: not signed by the creator, or in the period where recipients are protected. *)
Theorem C40_clawback_denied : forall E sg a amount w c, env_ok E -> reachable E w -> signers_ok E sg ->
  campaign_view (ba_campaign a) w = Ok c -> c_creator c ∉ sg \/ (grace_over c (get_current_time w) /\ ~ expired c (get_current_time w)) ->
  is_ok (merkle_exec E sg (MClawback a amount) w) = false.
Proof.
  intros E sg a am w c HE Hr Hsg Hc Hd. destruct (merkle_exec _ _ _ _) as [[w' evs]|] eqn:Hx; [|done]. exfalso.
  destruct (C40_clawback_only _ _ _ _ _ _ _ HE Hr Hsg Hx) as (c' & Hc' & H1 & H2 & _). assert (c' = c) as -> by congruence.
  destruct Hd as [?|[[? ?] ?]]; [done|]. destruct H2 as [?|[?|?]]; [lia|lia|done].
Qed.

(** In a forward-running chain the first claim lies in the past. *)
Lemma fwd_first_claim E w k c : env_ok E -> reachable_fwd E w -> wdat w !! k = Some (DCampaign c) -> c_first_claim c <= wclock w.
Proof.
  intros HE [Hw (tr & w0 & Hg & Hr)].
  assert (forall w, run E forward_clock w0 tr w -> 0 <= wclock w <= U64_MAX -> forall k c, wdat w !! k = Some (DCampaign c) -> c_first_claim c <= wclock w) as Hall.
  2:{ by apply Hall. }
  clear w k c Hw Hr. intros w Hr. induction Hr as [|tr w a evs w' Hr IH Hst]; intros Hw k c Hc; [by apply (g_data _ _ Hg) in Hc|].
  pose proof (run_inv _ _ _ _ _ HE (genesis_inv _ _ Hg) Hr) as Hi.
  assert (0 <= wclock w <= wclock w') as Hmono.
  { destruct Hst as [sg ix evs w' Hsg Hx|sg ix evs w' Hsg Hx|w' Ho [? ?]].
    - rewrite (lockup_clock _ _ _ _ _ _ HE Hsg Hx) in *. lia.
    - rewrite (merkle_clock _ _ _ _ _ _ HE Hsg Hx) in *. lia.
    - lia. }
  assert ((exists c0, wdat w !! k = Some (DCampaign c0)) \/ c_first_claim c = 0) as [(c0 & Hk0)|?]; [| |lia].
  { pose proof (step_keeps _ _ _ _ _ _ HE (inv_sane _ _ Hi) Hst) as [_ HM _ _].
    destruct Hst as [sg ix evs w' Hsg Hx|sg ix evs w' Hsg Hx|w' Ho Hc'].
    - left. exists c. by apply (u_new _ _ _ _ (HM eq_refl)) in Hc.
    - destruct (merkle_exec_effect _ _ _ _ _ _ Hx) as [_ Heff].
      destruct (merkle_new_campaign _ _ _ _ _ _ _ _ Heff Hc) as [?|(a & g & _ & _ & _ & _ & _ & -> & _)]; [by left|by right].
    - left. exists c. by apply (u_new _ _ _ _ (HM eq_refl)) in Hc. }
  pose proof (IH ltac:(lia) _ _ Hk0) as IHc.
  destruct (step_campaign _ _ _ _ _ _ _ _ HE (inv_sane _ _ Hi) Hst Hk0) as (c' & Hk' & Hch). assert (c' = c) as -> by congruence.
  destruct Hch as [(sg & ix & -> & Hsg & Hx & Hclk & Hch)|(_ & -> & _)]; [|lia].
  destruct Hch; [lia| |lia]. unfold campaign_claim. destruct (_ =? 0); simpl; [|lia]. rewrite (now_clock w) by lia. lia.
Qed.

(** What the creator has to bring. *)
Record clawback_ready (E : env) (w : world) (sg : list key) (a : clawback_accs) (amount : Z) (c : campaign) : Prop := {
  br_signed : ba_creator a ∈ sg /\ ba_creator a = c_creator c;
  br_campaign : campaign_view (ba_campaign a) w = Ok c;
  br_accs : merkle_ix_ok (MClawback a amount) = true;
  br_mint : ba_mint a = c_mint c /\ exists m, wdat w !! ba_mint a = Some (DMint m) /\ m_prog m = ba_tp a;
  br_vault : ata_address E (ba_campaign a) (ba_mint a) (ba_tp a) = Ok (ba_vault a) /\
    exists t, wdat w !! ba_vault a = Some (DToken t) /\ t_owner t = ba_campaign a /\ t_mint t = c_mint c /\
      t_prog t = ba_tp a /\ t_frozen t = false /\ amount <= t_amount t;
  br_dest : can_receive E w (ba_creator a) (ba_recipient_ata a) (ba_recipient a) (ba_mint a) (ba_tp a) amount 0;
  br_token : token_allows E w (ba_mint a) (ba_vault a) (ba_recipient_ata a) amount }.

Lemma clawback_live E w sg a amount c : env_ok E -> inv E w ->
  clawback_ready E w sg a amount c -> check_clawback (get_current_time w) (c_expiration c) (c_first_claim c) = Ok tt ->
  exists w', merkle_exec E sg (MClawback a amount) w = Ok (w', [EvClawback amount (ba_campaign a) (ba_creator a) (ba_recipient a)]).
Proof.
  intros HE Hi R Hall. destruct R as [[Rsg Rcr] Rc Racc [Rmi (m & Rm & Rmp)] (Rva & vt & Rv & Vo & Vm & Vp & Rfz & Rb) Rdest Rtok].
  apply load_campaign_ok in Rc as Hc.
  destruct (mi_campaign _ _ (inv_merkle _ _ Hi) _ _ Hc) as [Hok Haddr _].
  assert (0 <= amount <= U64_MAX) as [Ham0 Ham] by (pose proof Racc as Racc'; simpl in Racc'; ranges; lia).
  destruct (init_ata_live E _ _ _ _ _ w m amount 0 ltac:(lia) Ham Rm Rmp Rdest) as (w1 & t & Hi1 & Hds & Hdt & To & Tm & Tp & Tf & Tr & Tc).
  assert (get_current_time w1 = get_current_time w) as Hn1 by (apply now_same; apply (ds_clock _ _ _ Hds)).
  assert (ba_recipient_ata a <> ba_mint a) as N1 by (intros Heq; rewrite Heq in Hdt; destruct Hdt; congruence).
  destruct (transfer_live E (ba_tp a) (ba_vault a) (ba_recipient_ata a) (ba_campaign a) (ba_mint a) amount w1 vt t m) as (w2 & Hw2).
  { rewrite (ds_dat _ _ _ Hds). rewrite lookup_ins. case_decide as Hd; [|exact Rv].
    rewrite Hd in Hdt. rewrite Rv in Hdt. by destruct Hdt as [[= <-]|]. }
  { rewrite (ds_dat _ _ _ Hds). by rewrite lookup_insert. }
  { rewrite (ds_dat _ _ _ Hds). by rewrite lookup_insert_ne by exact N1. }
  { done. } { exact Ham0. } { unfold token_allows. rewrite (ds_clock _ _ _ Hds). exact Rtok. }
  { done. } { done. } { done. } { done. } { done. } { done. } { congruence. } { done. } { done. } { done. }
  exists w2. unfold merkle_exec. rewrite Racc. cbn [ensure rbind]. unfold clawback.
  rewrite (check_signer_live _ _ Rsg), (proj2 (load_mint_ok _ _ _) Rm),
    (proj2 (load_campaign_ok _ _ _) Hc), (proj2 (load_token_ok _ _ _) Rv). cbn [rbind].
  rewrite Hi1. cbn [rbind]. rewrite (check_address_live _ _ Rcr), (check_address_live _ _ Rmi).
  rewrite (check_ata_live E (ba_vault a) vt (ba_campaign a) (ba_mint a) (ba_tp a) Vp Vo Rva). cbn [rbind].
  rewrite Hn1, Hall. cbn [rbind]. rewrite Rmi. apply fpa_cpa in Haddr as [Haddr _]. rewrite Haddr. rewrite bool_decide_true by done.
  rewrite Rmi in Hw2. rewrite Hw2. done.
Qed.

(** The clock of Solana is a signed 64-bit number of seconds. *)
Definition I64_LAST : Z := 9223372036854775807.
Theorem C40_clawback_succeeds : forall E w sg a amount c, env_ok E -> reachable_fwd E w -> wclock w <= I64_LAST ->
  clawback_ready E w sg a amount c -> clawback_allowed c (get_current_time w) ->
  exists w', merkle_exec E sg (MClawback a amount) w = Ok (w', [EvClawback amount (ba_campaign a) (ba_creator a) (ba_recipient a)]).
Proof.
  intros E w sg a am c HE Hr Hclk R Hall. pose proof (reachable_inv _ _ HE (fwd_reachable _ _ Hr)) as Hi.
  pose proof (br_campaign _ _ _ _ _ _ R) as Hc%load_campaign_ok.
  pose proof (ci_ok _ _ _ _ (mi_campaign _ _ (inv_merkle _ _ Hi) _ _ Hc)) as Hok.
  pose proof (fwd_first_claim E w _ _ HE Hr Hc) as Hf.
  apply (clawback_live E w sg a am c HE Hi R). apply check_clawback_live; [apply Hok|apply Hok| |done].
  unfold SEVEN_DAYS, U64_MAX, I64_LAST in *. lia.
Qed.

(** ** C41 *)

(** Claims in a run are claims of the tree. *)
Lemma run_claims_in_tree E C w0 tr w k c t : env_ok E -> inv E w0 -> run E C w0 tr w -> hash_ok (keccak E) -> tree_ok t ->
  wdat w0 !! k = Some (DCampaign c) -> c_root c = root (keccak E) t ->
  (forall e, e ∈ claims_of k (events tr) -> e ∈ entries t) \/ trace_collision E tr k t.
Proof.
  intros HE Hi0 Hr HH Ht Hc Hroot. induction Hr as [|tr w a evs w' Hr IH Hst]; [left; intros e He; by apply elem_of_nil in He|].
  pose proof (run_inv _ _ _ _ _ HE Hi0 Hr) as Hi.
  rewrite events_app, events_one, claims_of_app.
  destruct IH as [Hin|(sg & ac & i & am & pf & evs' & H1 & H2)].
  2:{ right. exists sg, ac, i, am, pf, evs'. split; [|done]. apply elem_of_app. by left. }
  destruct (run_campaign (fun _ c' => same_campaign_terms c c') E C w0 c tr w k HE Hi0 Hr Hc) as (c1 & Hc1 & (_ & _ & Hr1 & _)).
  { done. }
  { intros w2 a2 evs2 w3 c2 c3 _ _ _ _ HP [(sg & ix & _ & _ & _ & _ & Hch)|(_ & -> & _)]; [|done].
    eapply same_campaign_terms_trans; [exact HP|]. by eapply campaign_change_terms. }
  destruct Hst as [sg ix evs w' Hsg Hx|sg ix evs w' Hsg Hx|w' Ho Hcl].
  - left. rewrite (proj1 (lockup_no_claims _ _ _ _ _ _ k Hx)), app_nil_r. done.
  - destruct (merkle_claims _ _ _ _ _ _ Hx) as [(ac & i & am & pf & tr' & m & c0 & vt & dt & fee & -> & F & Hcl)|[_ Hcl]]; rewrite Hcl.
    2:{ rewrite app_nil_r. by left. }
    destruct (Z.eqb_spec (la_campaign ac) k) as [Hk|]; [|rewrite app_nil_r; by left]. subst k.
    destruct (C35_claim E sg ac i am pf w w' evs c1 t HH Ht) as [He|Hco]; [by apply load_campaign_ok|congruence|exact Hx| |].
    + left. intros e [?|Heq%elem_of_list_singleton]%elem_of_app; [by apply Hin|]. by subst e.
    + right. exists sg, ac, i, am, pf, evs. split; [|done]. apply elem_of_app. right. by apply elem_of_list_singleton.
  - left. by rewrite app_nil_r.
Qed.

Lemma no_expiry_before c now now' : now <= now' -> ~ expired c now' -> ~ expired c now.
Proof. unfold expired. lia. Qed.

Lemma sum_amounts_app l1 l2 : sum_amounts (l1 ++ l2) = sum_amounts l1 + sum_amounts l2.
Proof. unfold sum_amounts. induction l1 as [|e l IH]; simpl; [done|]. rewrite IH. lia. Qed.

Definition no_clawback (k : key) (evs : list event) : Prop := forall am cr r, EvClawback am k cr r ∉ evs.

Lemma protected_run E w0 tr w k c v m : env_ok E -> inv E w0 -> 0 <= wclock w0 <= U64_MAX -> run E forward_clock w0 tr w ->
  wdat w0 !! k = Some (DCampaign c) -> grace_over c (get_current_time w0) ->
  ~ expired c (get_current_time w) ->
  (exists t, wdat w0 !! v = Some (DToken t) /\ t_owner t = k /\ t_mint t = m /\ ata_address E k (t_mint t) (t_prog t) = Ok v) ->
  no_clawback k (events tr) /\
  (exists t, wdat w !! v = Some (DToken t) /\ t_owner t = k /\ t_mint t = m /\ ata_address E k (t_mint t) (t_prog t) = Ok v) /\
  (plain E m = true -> balance w0 v - sum_amounts (claims_of k (events tr)) <= balance w v).
Proof.
  intros HE Hi0 Hw0 Hr Hc [Hg1 Hg2]. induction Hr as [|tr w a evs w' Hr IH Hst]; intros Hex Hv0.
  { split_and!; [intros ? ? ? Hin; by apply elem_of_nil in Hin|done|intros _; unfold sum_amounts; simpl; lia]. }
  pose proof (run_inv _ _ _ _ _ HE Hi0 Hr) as Hi.
  pose proof (run_clock_fwd E w0 tr w HE Hr Hw0) as Hclk0.
  pose proof (step_clock_fwd E w a evs w' HE Hst) as Hclk.
  assert (get_current_time w0 <= get_current_time w <= get_current_time w') as Hnow.
  { rewrite !now_clock by lia. lia. }
  destruct (IH) as (Hnc & (t & Hv & Ho & Htm & Hat) & Hbal); [by apply (no_expiry_before _ _ (get_current_time w')); [lia|]|done|].
  destruct (run_campaign (fun _ c' => same_campaign_terms c c' /\ c_first_claim c' = c_first_claim c) E forward_clock w0 c tr w k HE Hi0 Hr Hc) as (c1 & Hc1 & (T & Hf1)).
  { done. }
  { intros w2 a2 evs2 w3 c2 c3 _ _ _ _ [HP1 HP2] [(sg & ix & _ & _ & _ & _ & Hch)|(_ & -> & _)]; [|done].
    destruct (campaign_change_first _ _ _ _ _ _ _ _ _ Hch) as [H1 _]. split; [|rewrite H1; congruence].
    eapply same_campaign_terms_trans; [exact HP1|]. by eapply campaign_change_terms. }
  assert (pda_of E PMerkle k = true) as Hpk.
  { pose proof (ci_addr _ _ _ _ (mi_campaign _ _ (inv_merkle _ _ Hi) _ _ Hc1)) as Ha. by apply fpa_pda in Ha as [? _]. }
  rewrite events_app, events_one, claims_of_app, sum_amounts_app.
  assert (balance w v = t_amount t) as Hb by (unfold balance; by rewrite Hv).
  assert (forall w2, untouched E PMerkle w w2 -> (exists t, wdat w2 !! v = Some (DToken t) /\ t_owner t = k /\ t_mint t = m /\ ata_address E k (t_mint t) (t_prog t) = Ok v) /\
    (plain E m = true -> balance w v <= balance w2 v)) as Hunt.
  { intros w2 Hu. destruct (u_vault _ _ _ _ Hu _ _ Hv) as (t' & Hv' & Hp' & Hm' & Ho' & Ha'); [by rewrite Ho|by rewrite Ho|].
    split; [exists t'; split_and!; [done|congruence|congruence|by rewrite Hm', Hp']|]. intros Hpl. unfold balance. rewrite Hv, Hv'. apply Ha'. by rewrite Htm. }
  pose proof (step_keeps _ _ _ _ _ _ HE (inv_sane _ _ Hi) Hst) as [_ HM _ _].
  destruct Hst as [sg ix evs w' Hsg Hx|sg ix evs w' Hsg Hx|w' Ho' Hcl].
  - destruct (Hunt w' (HM eq_refl)) as [Hv' Hb']. destruct (lockup_no_claims _ _ _ _ _ _ k Hx) as [Hn Hp].
    split_and!; [|done|intros Hpl; specialize (Hb' Hpl); specialize (Hbal Hpl); rewrite Hn; unfold sum_amounts in *; simpl; lia].
    intros am cr r [?|Hin]%elem_of_app; [by apply (Hnc am cr r)|]. 
    apply lockup_exec_effect in Hx as [_ Heff].
    destruct Heff as [a f p c2 tb nb ? F|ix a p ct nc cm dm sb s1 nm c0 c2 ? ? Hix Hargs F|a s1 st ? ? Hsi Hse Hs ? ? ? ? -> ->|a mt s1 vt dt st ? ? F
      |ix a am' tr' mt nt s1 s' vt dt fee wd ? ? Hix Ham F|a tr' n ? Hc' Htr ? ? -> ? Hmv].
    + by apply elem_of_nil in Hin.
    + rewrite (rf_evs _ _ _ _ _ _ _ _ _ _ _ _ _ _ _ _ F) in Hin. by apply elem_of_list_singleton in Hin.
    + by apply elem_of_list_singleton in Hin.
    + rewrite (cf_evs _ _ _ _ _ _ _ _ _ _ _ F) in Hin. by apply elem_of_list_singleton in Hin.
    + rewrite (wf_evs _ _ _ _ _ _ _ _ _ _ _ _ _ _ _ _ F) in Hin. by apply elem_of_list_singleton in Hin.
    + by apply elem_of_list_singleton in Hin.
  - pose proof (merkle_exec_effect _ _ _ _ _ _ Hx) as [_ Heff].
    destruct (merkle_campaign _ _ _ _ _ _ _ _ Heff Hc1) as (c2 & Hc2 & Hch).
    destruct (campaign_change_vault _ _ _ _ _ _ _ _ _ v t HE Hsg Hx Hc1 Hpk Hch Hv Ho) as (Hp0 & t' & Hv' & (S1 & S2 & S3 & S4) & Hle).
    assert (balance w' v = t_amount t') as Hb' by (unfold balance; by rewrite Hv').
    assert (exists t, wdat w' !! v = Some (DToken t) /\ t_owner t = k /\ t_mint t = m /\ ata_address E k (t_mint t) (t_prog t) = Ok v) as Hvv.
    { exists t'. split_and!; [done|congruence|congruence|]. replace (t_mint t') with (t_mint t) by congruence. by replace (t_prog t') with (t_prog t) by congruence. }
    destruct Hch as [ix' Hp Hn1 Hn2|ac i am pf tr' mt vt dt fee Hk F Hp|ac am mt vt dt Hk F Hp].
    + split_and!; [|done|].
      * intros am cr r [?|Hin]%elem_of_app; [by apply (Hnc am cr r)|].
        destruct Heff as [| | |a am' mt c3 vt dt ? ? F|]; try (by apply elem_of_nil in Hin).
        -- subst. by apply elem_of_list_singleton in Hin.
        -- rewrite (lf_evs _ _ _ _ _ _ _ _ _ _ _ _ _ _ _ ltac:(eassumption)) in Hin. by apply elem_of_list_singleton in Hin.
        -- rewrite (bf_evs _ _ _ _ _ _ _ _ _ _ _ F) in Hin. apply elem_of_list_singleton in Hin as [= _ Hk _ _]. by apply (Hn2 a am' eq_refl).
        -- by apply elem_of_list_singleton in Hin.
      * intros Hpl. specialize (Hbal Hpl). destruct (merkle_claims _ _ _ _ _ _ Hx) as [(ac & i & am & pf & tr' & mt & c3 & vt & dt & fee & -> & F & Hcl)|[_ Hcl]]; rewrite Hcl.
        -- rewrite (proj2 (Z.eqb_neq _ _)); [unfold sum_amounts in *; simpl; lia|]. by apply (Hn1 ac i am pf).
        -- unfold sum_amounts in *; simpl; lia.
    + pose proof (lf_evs _ _ _ _ _ _ _ _ _ _ _ _ _ _ _ F) as Hev. split_and!; [|done|].
      * intros am' cr r [?|Hin]%elem_of_app; [by apply (Hnc am' cr r)|]. rewrite Hev in Hin. by apply elem_of_list_singleton in Hin.
      * intros Hpl. specialize (Hbal Hpl). assert (claims_of k evs = [Entry i (la_recipient ac) am]) as -> by (rewrite Hev; unfold claims_of; simpl; by rewrite Hk, Z.eqb_refl).
        unfold sum_amounts in *. simpl. lia.
    + exfalso. pose proof (bf_allowed _ _ _ _ _ _ _ _ _ _ _ F) as Hal.
      pose proof (ci_ok _ _ _ _ (mi_campaign _ _ (inv_merkle _ _ Hi) _ _ Hc1)) as Hok1.
      apply check_clawback_iff in Hal; [|apply Hok1|apply Hok1].
      destruct T as (_ & _ & _ & _ & T5 & _). unfold clawback_allowed, expired in Hal. rewrite T5, Hf1 in Hal.
      unfold expired in Hex. lia.
  - destruct (Hunt w' (HM eq_refl)) as [Hv' Hb']. split_and!; [|done|intros Hpl; specialize (Hb' Hpl); specialize (Hbal Hpl); simpl; unfold sum_amounts in *; simpl; lia].
    rewrite app_nil_r. done.
Qed.

(** From any moment more than seven days after the first claim until the campaign expires (forever, if it does not),
    there is no clawback and the vault only loses what is claimed, each claim being an entry of the tree. *)
Theorem C41_protected : forall E w tr w' k c v vt t, env_ok E -> reachable_fwd E w -> run E forward_clock w tr w' ->
  campaign_view k w = Ok c -> grace_over c (get_current_time w) -> ~ expired c (get_current_time w') ->
  wdat w !! v = Some (DToken vt) -> t_owner vt = k -> ata_address E k (t_mint vt) (t_prog vt) = Ok v ->
  no_clawback k (events tr) /\
  (plain E (t_mint vt) = true -> balance w v - sum_amounts (claims_of k (events tr)) <= balance w' v) /\
  (hash_ok (keccak E) -> tree_ok t -> c_root c = root (keccak E) t ->
   (forall e, e ∈ claims_of k (events tr) -> e ∈ entries t) \/ trace_collision E tr k t).
Proof.
  intros E w tr w' k c v vt t HE Hr Hrun Hc%load_campaign_ok Hg Hex Hv Hvo Hva.
  pose proof (reachable_inv _ _ HE (fwd_reachable _ _ Hr)) as Hi.
  destruct (protected_run E w tr w' k c v (t_mint vt) HE Hi (proj1 Hr) Hrun Hc Hg Hex ltac:(by exists vt)) as (H1 & _ & H2).
  split_and!; [done|done|]. intros HH Ht Hroot. by apply (run_claims_in_tree E forward_clock w tr w' k c t).
Qed.
(** Every campaign has such a vault. *)
Theorem C41_vault_exists : forall E w k c, env_ok E -> reachable E w -> campaign_view k w = Ok c ->
  exists v vt, wdat w !! v = Some (DToken vt) /\ t_owner vt = k /\ t_mint vt = c_mint c /\ ata_address E k (t_mint vt) (t_prog vt) = Ok v.
Proof.
  intros E w k c HE Hr Hc%load_campaign_ok. destruct (mi_campaign _ _ (inv_merkle _ _ (reachable_inv _ _ HE Hr)) _ _ Hc) as [_ _ (tp & v & vt & H1 & H2 & H3 & H4 & H5)].
  exists v, vt. split_and!; [done|done|done|by rewrite H4, H5].
Qed.

(** ** C42 *)

(** What the instruction answers: it looks at the expiration, not at the first claim. It aborts for expirations within
    seven days of 2^64. *)
Theorem C42_actual : forall E w k c, env_ok E -> reachable E w -> campaign_view k w = Ok c ->
  (c_expiration c + SEVEN_DAYS <= U64_MAX ->
    exists b, has_grace_period_passed_view k w = Ok b /\
      (b = true <-> c_expiration c <> 0 /\ c_expiration c + SEVEN_DAYS < get_current_time w)) /\
  (U64_MAX < c_expiration c + SEVEN_DAYS -> has_grace_period_passed_view k w = Err EPanic).
Proof.
  intros E w k c HE Hr Hc. unfold has_grace_period_passed_view. unfold campaign_view in Hc. rewrite Hc. cbn [rbind].
  apply load_campaign_ok in Hc. pose proof (ci_ok _ _ _ _ (mi_campaign _ _ (inv_merkle _ _ (reachable_inv _ _ HE Hr)) _ _ Hc)) as Hok.
  split; intros Hl.
  - destruct (grace_defined (get_current_time w) _ Hl) as [b Hb]. exists b. split; [done|]. apply (grace_fun _ _ (proj1 (co_expiration _ Hok)) _ Hb).
  - unfold has_grace_period_passed, u64_add. change GRACE_PERIOD with SEVEN_DAYS.
    destruct (Z.ltb_spec 0 (c_expiration c)); [|unfold U64_MAX, SEVEN_DAYS in *; lia].
    rewrite (proj2 (Z.leb_gt _ _) Hl). done.
Qed.

(** The claim of the name is refuted in both directions: a campaign whose grace period is over for which it says no,
    and an unclaimed one for which it says yes. *)
Theorem C42_refuted :
  (exists E w k c, env_ok E /\ reachable_fwd E w /\ campaign_view k w = Ok c /\
     grace_over c (get_current_time w) /\ has_grace_period_passed_view k w = Ok false) /\
  (exists E w k c, env_ok E /\ reachable_fwd E w /\ campaign_view k w = Ok c /\
     c_first_claim c = 0 /\ has_grace_period_passed_view k w = Ok true).
Proof.
  split.
  - exists E0, w7, (kCampaign 1500 0), camp6. split; [exact E0_ok|].
    split; [apply (history_fwd _ _ _ w7_hist); vm_compute; reflexivity|]. split; [exact w7_campaign|].
    split; [split; [vm_compute; discriminate|vm_compute; reflexivity]|]. vm_compute. reflexivity.
  - exists E0, w7, (kCampaign 1500 3000). eexists. split; [exact E0_ok|].
    split; [apply (history_fwd _ _ _ w7_hist); vm_compute; reflexivity|]. split; [vm_compute; reflexivity|].
    split; [vm_compute; reflexivity|]. vm_compute. reflexivity.
Qed.

(** The check inside clawback does use the first claim: see C40. *)

(** ** C46 *)
Theorem C46_never_claimed : forall E tr w k c, env_ok E -> history E any_clock tr w -> campaign_view k w = Ok c ->
  0 < c_expiration c <= c_start c ->
  (forall sg a i am pf, la_campaign a = k -> is_ok (merkle_exec E sg (MClaim a i am pf) w) = false) /\
  claims_of k (events tr) = [] /\ c_first_claim c = 0.
Proof.
  intros E tr w k c HE Hh Hc Hse.
  assert (forall w c, reachable E w -> campaign_view k w = Ok c -> 0 < c_expiration c <= c_start c ->
    forall sg a i am pf, la_campaign a = k -> is_ok (merkle_exec E sg (MClaim a i am pf) w) = false) as Hno.
  { intros w1 c1 Hr Hc1 Hse1 sg a i am pf <-. apply (C33_outside_fails E sg a i am pf w1 c1 HE Hr Hc1). unfold window. lia. }
  split; [apply (Hno w c); [by exists tr|done|done]|].
  assert (claims_of k (events tr) = []) as Hcl; [|split; [done|by apply (C39_unclaimed E tr w k c)]].
  destruct Hh as (w0 & Hg & Hr). revert c Hc Hse. induction Hr as [|tr w a evs w' Hr IH Hst]; intros c Hc Hse; [done|].
  pose proof (run_inv _ _ _ _ _ HE (genesis_inv _ _ Hg) Hr) as Hi. apply load_campaign_ok in Hc as Hk.
  rewrite events_app, events_one, claims_of_app.
  assert (reachable E w) as Hrw by (exists tr, w0; done).
  assert (forall c0, wdat w !! k = Some (DCampaign c0) -> 0 < c_expiration c0 <= c_start c0) as Hprev.
  { intros c0 Hk0. destruct (step_campaign _ _ _ _ _ _ _ _ HE (inv_sane _ _ Hi) Hst Hk0) as (c' & Hk' & Hch). assert (c' = c) as -> by congruence.
    destruct Hch as [(sg & ix & _ & _ & _ & _ & Hch)|(_ & -> & _)]; [|done].
    destruct (campaign_change_terms _ _ _ _ _ _ _ _ _ Hch) as (_ & _ & _ & T4 & T5 & _). lia. }
  assert (claims_of k (events tr) = []) as ->.
  { destruct (claims_of k (events tr)) as [|e l] eqn:Hcl; [done|].
    destruct (history_claims E any_clock tr w k HE (ex_intro _ w0 (conj Hg Hr))) as (c0 & Hk0); [by rewrite Hcl|].
    rewrite <- Hcl in *. apply (IH c0); [by apply load_campaign_ok|by apply Hprev]. }
  destruct Hst as [sg ix evs w' Hsg Hx|sg ix evs w' Hsg Hx|w' Ho Hcl]; [by rewrite (proj1 (lockup_no_claims _ _ _ _ _ _ k Hx))| |done].
  destruct (merkle_claims _ _ _ _ _ _ Hx) as [(ac & i & am & pf & tr' & m & c3 & vt & dt & fee & -> & F & Hcl)|[_ Hcl]]; rewrite Hcl; [|done].
  destruct (Z.eqb_spec (la_campaign ac) k) as [Heq|]; [|done]. exfalso.
  pose proof (lf_campaign _ _ _ _ _ _ _ _ _ _ _ _ _ _ _ F) as Hk0. rewrite Heq in Hk0.
  pose proof (Hno w c3 Hrw (proj2 (load_campaign_ok _ _ _) Hk0) (Hprev _ Hk0) sg ac i am pf Heq) as Hf. by rewrite Hx in Hf.
Qed.
Theorem C46_always_refundable : forall E w sg a amount c, env_ok E -> reachable E w -> 0 < c_expiration c <= c_start c ->
  clawback_ready E w sg a amount c ->
  exists w', merkle_exec E sg (MClawback a amount) w = Ok (w', [EvClawback amount (ba_campaign a) (ba_creator a) (ba_recipient a)]).
Proof.
  intros E w sg a am c HE [tr Hh] Hse R. pose proof (history_inv _ _ _ _ HE Hh) as Hi.
  apply (clawback_live E w sg a am c HE Hi R).
  destruct (C46_never_claimed E tr w _ c HE Hh (br_campaign _ _ _ _ _ _ R) Hse) as (_ & _ & Hf).
  unfold check_clawback. rewrite Hf. done.
Qed.

(** ** Non-vacuity *)
(** In the grace period the creator can claw back, afterwards not; with an expiration again. *)
Lemma w6_clawback_ready : clawback_ready E0 w6 [kSender] (clawback_to 1500 0 kSender) 400 camp6.
Proof.
  split.
  - split; [apply elem_of_list_here|reflexivity].
  - exact w6_campaign.
  - vm_compute. reflexivity.
  - split; [vm_compute; reflexivity|]. eexists. split; vm_compute; reflexivity.
  - split; [vm_compute; reflexivity|]. eexists. split; [vm_compute; reflexivity|].
    split; [vm_compute; reflexivity|]. split; [vm_compute; reflexivity|]. split; [vm_compute; reflexivity|]. split; [vm_compute; reflexivity|].
    vm_compute. discriminate.
  - split; [vm_compute; reflexivity|]. left. eexists. split; [vm_compute; reflexivity|]. split; [vm_compute; reflexivity|].
    split; [vm_compute; reflexivity|]. split; [vm_compute; reflexivity|]. split; [vm_compute; reflexivity|].
    split; [vm_compute; discriminate|]. left. lia.
  - vm_compute. discriminate.
Qed.
Example C40_example : exists w', merkle_exec E0 [kSender] (MClawback (clawback_to 1500 0 kSender) 400) w6 =
  Ok (w', [EvClawback 400 (kCampaign 1500 0) kSender kSender]).
Proof.
  apply (C40_clawback_succeeds E0 w6 [kSender] (clawback_to 1500 0 kSender) 400 camp6).
  - exact E0_ok.
  - apply (history_fwd _ _ _ w6_hist). vm_compute. reflexivity.
  - vm_compute. discriminate.
  - exact w6_clawback_ready.
  - right; left. vm_compute. discriminate.
Qed.
(** The boundary: the grace period ends seven days after 1800; not even a clawback of 0 is possible then. *)
Example C40_boundary :
  is_ok (merkle_exec E0 [kSender] (MClawback (clawback_to 1500 0 kSender) 400) (T (1800 + SEVEN_DAYS) w6)) = true /\
  is_ok (merkle_exec E0 [kSender] (MClawback (clawback_to 1500 0 kSender) 0) (T (1800 + SEVEN_DAYS + 1) w6)) = false /\
  is_ok (merkle_exec E0 [kOther] (MClawback (clawback_to 1500 0 kSender) 1) w6) = false /\
  is_ok (merkle_exec E0 [kSender] (MClawback (clawback_to 1500 0 kSender) 401) w6) = false.
Proof. split; [vm_compute; reflexivity|]. split; [vm_compute; reflexivity|]. split; vm_compute; reflexivity. Qed.
(** At 1000000 the campaign of the run is protected; index 2 is claimed in that period. *)
Example C41_example : let w := T 1000000 w6 in
  reachable_fwd E0 w /\ campaign_view (kCampaign 1500 0) w = Ok camp6 /\ grace_over camp6 (get_current_time w) /\
  ~ expired camp6 (get_current_time w) /\
  is_ok (merkle_exec E0 [kCollector; kOther] (MClaim (claim_by kOther 1500 0 2 kCollector) 2 200 [nodeAB]) w) = true.
Proof.
  split; [apply T_fwd with (1 := w6_hist); vm_compute; reflexivity|]. split; [vm_compute; reflexivity|].
  split; [split; [vm_compute; discriminate|vm_compute; reflexivity]|]. split; [intros [H _]; by vm_compute in H|]. vm_compute. reflexivity.
Qed.
(** A campaign that expires (at 1500) before it starts (at 3000): after it is funded, and at any time later, the
    creator gets the money back, and a claim fails. *)
Definition script_void : list cmd :=
  [CM [kSender] (MCreateCampaign (camp_accs 3000 1500) (camp_args 3000 1500)); CGive (kCampVault 3000 1500) 1000; CT 700000000].
Definition w_void : world := lit
  (ltac:(let x := eval vm_compute in (lam_of (script E0 script_void w5)) in exact x))
  (ltac:(let x := eval vm_compute in (dat_of (script E0 script_void w5)) in exact x))
  (ltac:(let x := eval vm_compute in (wclock (script E0 script_void w5)) in exact x)).
Definition tr_void : trace := Eval vm_compute in script_trace E0 script_void w5.
Lemma w_void_stage : stage E0 script_void w5 tr_void w_void.
Proof. apply stage_intro. vm_compute. reflexivity. Qed.
Definition camp_void : campaign := match campaign_view (kCampaign 3000 1500) w_void with Ok c => c | _ => camp6 end.
Lemma w_void_hist : history E0 forward_clock (tr5 ++ tr_void) w_void.
Proof. exact (history_stage _ _ _ _ _ w5_hist w_void_stage). Qed.
Example C46_example : campaign_view (kCampaign 3000 1500) w_void = Ok camp_void /\ 0 < c_expiration camp_void <= c_start camp_void /\
  is_ok (merkle_exec E0 [kOther] (MClaim (claim_by kOther 3000 1500 0 kRecipient) 0 500 [leafB; leafC]) w_void) = false /\
  exists w', merkle_exec E0 [kSender] (MClawback (clawback_to 3000 1500 kSender) 1000) w_void =
    Ok (w', [EvClawback 1000 (kCampaign 3000 1500) kSender kSender]).
Proof.
  split; [vm_compute; reflexivity|]. split; [split; vm_compute; [reflexivity|discriminate]|]. split; [vm_compute; reflexivity|].
  apply (C46_always_refundable E0 w_void [kSender] (clawback_to 3000 1500 kSender) 1000 camp_void).
  - exact E0_ok.
  - exact (history_reach _ _ _ w_void_hist).
  - split; vm_compute; [reflexivity|discriminate].
  - split.
    + split; [apply elem_of_list_here|reflexivity].
    + vm_compute. reflexivity.
    + vm_compute. reflexivity.
    + split; [vm_compute; reflexivity|]. eexists. split; vm_compute; reflexivity.
    + split; [vm_compute; reflexivity|]. eexists. split; [vm_compute; reflexivity|].
      split; [vm_compute; reflexivity|]. split; [vm_compute; reflexivity|]. split; [vm_compute; reflexivity|]. split; [vm_compute; reflexivity|].
      vm_compute. discriminate.
    + split; [vm_compute; reflexivity|]. left. eexists. split; [vm_compute; reflexivity|]. split; [vm_compute; reflexivity|].
      split; [vm_compute; reflexivity|]. split; [vm_compute; reflexivity|]. split; [vm_compute; reflexivity|].
      split; [vm_compute; discriminate|]. left. lia.
    + vm_compute. discriminate.
Qed.
Print Assumptions C40_clawback_only.
Print Assumptions C40_clawback_denied.
Print Assumptions C40_clawback_succeeds.
Print Assumptions C41_protected.
Print Assumptions C41_vault_exists.
Print Assumptions C42_actual.
Print Assumptions C42_refuted.
Print Assumptions C46_never_claimed.
Print Assumptions C46_always_refundable.
